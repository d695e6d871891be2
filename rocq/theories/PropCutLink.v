(** * Property C108: saving that is interrupted, in programs that change links, types of pages and tables *)
From Coq Require Import NArith ZArith List Bool Lia.
From Coq Require Import ZifyBool ZifyNat ZifyN.
From Verif Require Import Base BaseFacts Segs Str StrFacts StrGood Schema SchemaFacts Oa OaFacts OaSpec Rows RowFacts RowSpec Page BitFacts PageFacts PageRw PageSpec Alloc AllocFacts AllocSpec
  Db DbFacts DbFlush DbFresh Reread Progress Insert Session Revise Relink PropAlloc PropSession PropRevise Cut PropCut PropRelink CutLink.
Import ListNotations.
Open Scope N_scope.

(** A program as in C80 whose last save is interrupted while page [j] is written: the file has the new header, new pages in front of [j] and behind it those of the save before, with their
    old links.  A table is shown if its pages are linked in this mixture. *)
Theorem c108_interrupted : forall b k io d G A l d1 j io',
  bytes_ok io -> len io < 2 ^ 64 - 1 -> db_open io k = DOk d -> 28 + 16 * len (dh_tables (db_header d)) <= dh_page_size (db_header d) ->
  (forall i s, A i = Some s -> exists p, good_page b d (G i) i p /\ like s p) -> tasks_ok b k G (db_header d, A) l ->
  tasks b d l d1 -> interrupted b d1 j io' ->
  let st := (db_header d, A) in let h' := fst (tasks_work st l) in let A' := spliced j (snd (tasks_work st l)) (snd (tasks_saved st st l)) in
  exists d2, db_open io' k = DOk d2 /\ db_header d2 = h' /\ stores b d2 G A' /\
    forall r i t q, find_table (PT r) h' = Some (i, t) -> path A' (tb_last t) (tb_first t) q -> forallb (is_variant r) (flat_map (shelf_rows A') q) = true -> shown b k r io' (flat_map (shelf_rows A') q).
Proof.
  intros b k io d G A l d1 j io' HB HL HO HP HA HW HS HI st h' A'. pose proof (open_stores b io k d G A HB HL HO HP HA) as HST. destruct (open_pages _ _ _ HO) as (E1 & E2 & _). rewrite <- E2 in HW.
  destruct (tasks_stores b d l d1 HS G st HST eq_refl HW) as (D1 & D2 & D3). assert (on_file b d G (fst st) (snd st)) as HD by (split; [easy|]; split; [easy|]; exists d; now rewrite E1, E2).
  pose proof (tasks_on_file b d l d1 HS G st st HST eq_refl HW HD) as HD1. destruct (cut_stores b d1 G _ _ _ j io' D1 HD1 HI) as (d2 & O1 & O2 & O3). rewrite D3, E2 in O1. rewrite D2 in O2. fold h' in O2. fold A' in O3.
  exists d2. split; [exact O1|]. split; [exact O2|]. split; [exact O3|]. intros r i t q HT HPA HV. rewrite <- O2 in HT. destruct (stores_rows b d2 G A' r i t q O3 HT HPA HV) as (rows & R1 & R2). exists d2, rows. now repeat split.
Qed.
Print Assumptions c108_interrupted.
(** If it is interrupted after a page, no page is lost. *)
Theorem c108_between : forall b k io d G A l d1 j d2,
  bytes_ok io -> len io < 2 ^ 64 - 1 -> db_open io k = DOk d -> 28 + 16 * len (dh_tables (db_header d)) <= dh_page_size (db_header d) ->
  (forall i s, A i = Some s -> exists p, good_page b d (G i) i p /\ like s p) -> tasks_ok b k G (db_header d, A) l ->
  tasks b d l d1 -> 1 <= j -> flush b (unload_from d1 j) = DOk d2 ->
  let st := (db_header d, A) in let h' := fst (tasks_work st l) in let A' := parted j (snd (tasks_work st l)) (snd (tasks_saved st st l)) in
  exists d3, db_open (db_io d2) k = DOk d3 /\ db_header d3 = h' /\ stores b d3 G A' /\
    forall r i t q, find_table (PT r) h' = Some (i, t) -> path A' (tb_last t) (tb_first t) q -> forallb (is_variant r) (flat_map (shelf_rows A') q) = true -> shown b k r (db_io d2) (flat_map (shelf_rows A') q).
Proof.
  intros b k io d G A l d1 j d2 HB HL HO HP HA HW HS HJ HF st h' A'. pose proof (open_stores b io k d G A HB HL HO HP HA) as HST. destruct (open_pages _ _ _ HO) as (E1 & E2 & _). rewrite <- E2 in HW.
  destruct (tasks_stores b d l d1 HS G st HST eq_refl HW) as (D1 & D2 & D3). assert (on_file b d G (fst st) (snd st)) as HD by (split; [easy|]; split; [easy|]; exists d; now rewrite E1, E2).
  pose proof (tasks_on_file b d l d1 HS G st st HST eq_refl HW HD) as HD1. pose proof (parted_stores b d1 G _ _ _ j HJ D1 HD1) as HU. fold A' in HU. destruct (flush_stores b _ d2 G _ HU HF) as (d3 & O1 & O2 & O3 & O4).
  change (db_kind (unload_from d1 j)) with (db_kind d1) in *. change (db_header (unload_from d1 j)) with (db_header d1) in *. rewrite D3, E2 in O1. rewrite D2 in O2. fold h' in O2.
  exists d3. split; [exact O1|]. split; [exact O2|]. split; [exact O4|]. intros r i t q HT HPA HV. rewrite <- O2 in HT. destruct (stores_rows b d3 G A' r i t q O4 HT HPA HV) as (rows & R1 & R2). exists d3, rows. now repeat split.
Qed.
Print Assumptions c108_between.

(** ** Extending a table by a page, with two saves *)
Lemma path_like A A' last : forall first q, path A last first q -> (forall i, In i q -> i <> last -> A' i = A i) -> (exists s, A' last = Some s) -> path A' last first q.
Proof.
  intros first q H. induction H as [s E|n s l NE E HI HP IH]; intros HE [s' EL]; [now apply (path_last _ _ s')|]. apply (path_step _ _ n s); try easy; [now rewrite HE by (easy || now left)|]. apply IH; [|now exists s']. intros i Hi. apply HE. now right.
Qed.
Lemma rows_like A A' : forall q, (forall i, In i q -> shelf_rows A' i = shelf_rows A i) -> flat_map (shelf_rows A') q = flat_map (shelf_rows A) q.
Proof. induction q as [|i q IH]; intro H; [easy|]. cbn [flat_map]. rewrite IH by (intros x Hx; apply H; now right). now rewrite H by now left. Qed.
Lemma places_variant r : forall ops sh, Forall (fun op => match snd op with Some x => is_variant r x = true | None => True end) ops -> forallb (is_variant r) (sh_rows sh) = true -> forallb (is_variant r) (sh_rows (places ops sh)) = true.
Proof.
  induction ops as [|op ops IH]; intros sh H HS; [easy|]. inversion H as [|? ? H1 H2]; subst. change (places (op :: ops) sh) with (places ops (place sh op)). apply IH; [easy|]. unfold place. destruct (sh_free sh <? (fst op + 3) / 4 * 4 + 6); [easy|]. cbn [sh_rows].
  rewrite forallb_app, HS. cbn [andb]. destruct (snd op) as [x|]; [|easy]. cbn [forallb]. now rewrite H1.
Qed.
(** The program first links the free page [m] to the last page of the table and fills it, and saves; then it makes [m] the last page of the table, and saves again.  If the first save is
    interrupted, the table has its old rows, whichever pages have been written; once the header of the second save is written, it has the new ones behind them.  The only page that may be
    lost is the one that is being written at that moment.  While the header is written, the table is the old or the new one if the numbers of the two pages differ in one byte only. *)
Theorem c108_two_saves : forall b k io d G A r i t q s m sm n ops P,
  bytes_ok io -> len io < 2 ^ 64 - 1 -> db_open io k = DOk d -> 28 + 16 * len (dh_tables (db_header d)) <= dh_page_size (db_header d) -> dh_page_size (db_header d) <= 4096 ->
  (forall i s, A i = Some s -> exists p, good_page b d (G i) i p /\ like s p) ->
  find_table (PT r) (db_header d) = Some (i, t) -> path A (tb_last t) (tb_first t) q -> forallb (is_variant r) (flat_map (shelf_rows A) q) = true ->
  A (tb_last t) = Some s -> sh_type s = PT r -> G (tb_last t) <> GAny -> tb_last t < m -> m < 2 ^ 32 -> A m = Some sm -> sh_rows sm = [] -> G m = GGrow -> n < 2 ^ 32 ->
  Forall (op_fine b (PT r)) ops -> Forall (fun op => match snd op with Some x => is_variant r x = true | None => True end) ops ->
  let first := [TLabel (tb_last t) m (PT r); TLabel m n (PT r); TActs P [AInsert m ops]] in
  let second := first ++ [TActs P [ASave]; THeader (set_last (PT r) m)] in
  let old := flat_map (shelf_rows A) q in let new := old ++ sh_rows (places ops (relabelled n (PT r) sm)) in
  (exists d1, tasks b d second d1) /\
  (forall d1, tasks b d first d1 ->
    (forall j d2, 1 <= j -> flush b (unload_from d1 j) = DOk d2 -> shown b k r (db_io d2) old) /\ (forall j io', ~ In j q -> interrupted b d1 j io' -> shown b k r io' old) /\
    (forall io', interrupted_header d1 io' -> shown b k r io' old)) /\
  (forall d1, tasks b d second d1 ->
    (forall j d2, 1 <= j -> flush b (unload_from d1 j) = DOk d2 -> shown b k r (db_io d2) new) /\ (forall j io', ~ In j (m :: q) -> interrupted b d1 j io' -> shown b k r io' new) /\
    (forall io', tb_last t / 256 = m / 256 -> interrupted_header d1 io' -> shown b k r io' old \/ shown b k r io' new)).
Proof.
  intros b k io d G A r i t q s m sm n ops P HB HL HO HP H4 HA HT HPA HV ES ETS EG HM HM32 EM ERS EGM HN HOP HOV first second old new. pose proof (open_stores b io k d G A HB HL HO HP HA) as HST. pose proof (open_kind io k d HO) as HK.
  assert (dbhdr_ok k (db_header d)) as HHO by (destruct HST as ((_ & X & _) & _); now rewrite HK in X). pose proof HHO as (O1 & O2 & O3 & O4 & O5 & O6 & O7).
  destruct (find_type _ _ _ _ _ HT) as [TT TI]. assert (ptype_ok k (PT r)) as HPT. { rewrite Forall_forall in O7. destruct (O7 t TI) as [X _]. now rewrite TT in X. }
  destruct (c80_link A (tb_last t) (tb_first t) q s m sm n (PT r) HPA ES EM HM) as (L1 & L2 & L3). rewrite ETS in L1, L2, L3. set (A1 := put A (tb_last t) (relabelled m (PT r) s)) in *. set (A2 := put A1 m (relabelled n (PT r) sm)) in *.
  assert (A1 m = Some sm) as EM1 by (unfold A1, put; replace (m =? tb_last t) with false by lia; exact EM). assert (A2 m = Some (relabelled n (PT r) sm)) as EM2 by (unfold A2, put; now rewrite N.eqb_refl).
  set (st := (db_header d, A)). set (AN := work1 A2 (m, ops)).
  assert (tasks_work st first = (db_header d, AN)) as EW.
  { unfold first, tasks_work, st. cbn [fold_left task_work fst snd acts_work act_work]. rewrite ES. fold A1. rewrite EM1. fold A2. reflexivity. }
  assert (tasks_saved st st first = st) as EV by reflexivity.
  assert (tasks_work st second = (set_last (PT r) m (db_header d), AN)) as EW2 by (unfold second; rewrite tasks_work_app, EW; reflexivity).
  assert (snd (tasks_saved st st second) = AN) as EV2.
  { unfold second, first, st, AN. cbn [app tasks_saved task_saved task_work fst snd]. rewrite ES. fold A1. rewrite EM1. fold A2. reflexivity. }
  assert (tasks_ok b k G st first) as HW.
  { unfold first, st. cbn [tasks_ok task_ok task_work fst snd]. rewrite ES. fold A1. rewrite EM1. fold A2. split; [|split; [|split; [|exact I]]].
    - exists s. repeat (split; [easy|]). now left.
    - exists sm. split; [reflexivity|]. split; [congruence|]. split; [easy|]. split; [easy|]. now right.
    - cbn [acts_ok act_ok]. split; [|exact I]. exists (relabelled n (PT r) sm). cbn [fst snd]. split; [exact EM2|]. right. now split. }
  assert (tasks_ok b k G st second) as HW2.
  { unfold second. apply tasks_ok_app. split; [exact HW|]. rewrite EW. cbn [tasks_ok task_ok task_work fst snd]. split; [cbn [acts_ok act_ok]; now split|]. split; [|exact I].
    cbv zeta. unfold set_last, dbhdr_ok. cbn [dh_page_size dh_num dh_next dh_unknown dh_seq dh_tables]. rewrite len_set_last. split; [|easy]. repeat (split; [easy|]). now apply set_last_ok. }
  assert (forall x, AN x = if x =? m then Some (places ops (relabelled n (PT r) sm)) else A2 x) as HW1. { intro x. unfold AN, work1. cbn [fst snd]. destruct (x =? m) eqn:E; [|easy]. assert (x = m) as -> by lia. now rewrite EM2. }
  apply path_le in HPA as HX. destruct HX as [HX _]. rewrite Forall_forall in HX.
  assert (AN (tb_last t) = Some (relabelled m (PT r) s)) as EAL. { rewrite HW1. replace (tb_last t =? m) with false by lia. unfold A2, A1, put. replace (tb_last t =? m) with false by lia. now rewrite N.eqb_refl. }
  assert (forall x, In x q -> x <> tb_last t -> AN x = A x) as EAQ. { intros x Hx Hn. apply HX in Hx. rewrite HW1. replace (x =? m) with false by lia. apply L3; lia. }
  assert (forall x, In x q -> shelf_rows AN x = shelf_rows A x) as ERQ. { intros x Hx. unfold shelf_rows. destruct (N.eq_dec x (tb_last t)) as [->|NE]; [now rewrite EAL, ES|now rewrite EAQ]. }
  assert (path AN m (tb_first t) (q ++ [m])) as HPW.
  { clear - L1 HW1 EM2. induction L1 as [s0 E|x s0 l NE E HI HP IH]; [apply (path_last _ _ (places ops (relabelled n (PT r) sm))); now rewrite HW1, N.eqb_refl|].
    apply (path_step _ _ x s0); try easy. rewrite HW1. now replace (x =? m) with false by lia. }
  assert (flat_map (shelf_rows AN) (q ++ [m]) = new) as ER. { rewrite flat_map_app. cbn [flat_map]. rewrite app_nil_r, (rows_like A AN q ERQ). unfold shelf_rows at 2. now rewrite HW1, N.eqb_refl. }
  assert (forallb (is_variant r) new = true) as HVN. { unfold new, old. rewrite forallb_app, HV. cbn [andb]. apply places_variant; [easy|]. cbn [relabelled sh_rows]. now rewrite ERS. }
  assert (on_file b d G (fst st) (snd st)) as HOF by (split; [easy|]; split; [easy|]; exists d; destruct (open_pages _ _ _ HO) as (E1 & E2 & _); now rewrite E1, E2).
  split; [|split].
  - apply (tasks_run b G second d st); try easy. now rewrite HK.
  - intros d1 HD. assert (forall A', (forall x, In x q -> A' x = AN x \/ A' x = A x) -> path A' (tb_last t) (tb_first t) q /\ flat_map (shelf_rows A') q = old) as HC.
    { intros A' HE. split.
      - apply (path_like A); [exact HPA| |].
        + intros x Hx Hn. destruct (HE x Hx) as [->|E]; [now apply EAQ|exact E].
        + assert (In (tb_last t) q) as HI. { clear - HPA. induction HPA as [s0 E|x s0 l NE E HI HP IH]; [now left|now right]. } destruct (HE _ HI) as [->| ->]; rewrite ?EAL, ?ES; now eexists.
      - apply rows_like. intros x Hx. destruct (HE x Hx) as [E|E]; unfold shelf_rows; rewrite E; [now apply ERQ|easy]. }
    split; [|split].
    + intros j d2 HJ HF. destruct (c108_between b k io d G A first d1 j d2 HB HL HO HP HA HW HD HJ HF) as (d3 & B1 & B2 & B3 & B4). fold st in B3, B4. rewrite EV, EW in B3, B4. cbn [fst snd st] in B3, B4.
      destruct (HC (parted j AN A)) as [C1 C2]; [intros x _; unfold parted; destruct (x <? j); auto|]. rewrite <- C2. apply (B4 r i t q HT C1). rewrite C2. exact HV.
    + intros j io' HJ HF. destruct (c108_interrupted b k io d G A first d1 j io' HB HL HO HP HA HW HD HF) as (d3 & B1 & B2 & B3 & B4). fold st in B3, B4. rewrite EV, EW in B3, B4. cbn [fst snd st] in B3, B4.
      destruct (HC (spliced j AN A)) as [C1 C2]. { intros x Hx. unfold spliced. destruct (x <? j); [now left|]. destruct (x =? j) eqn:E; [|now right]. assert (x = j) as -> by lia. easy. }
      rewrite <- C2. apply (B4 r i t q HT C1). rewrite C2. exact HV.
    + intros io' HI. rewrite <- HK in HW. destruct (tasks_stores b d first d1 HD G st HST eq_refl HW) as (D1 & D2 & D3). pose proof (tasks_on_file b d first d1 HD G st st HST eq_refl HW HOF) as HD1. rewrite EV in HD1. rewrite EW in D1, D2. cbn [fst snd st] in D1, D2, HD1.
      rewrite <- D2 in HD1. destruct (header_cut b d1 G _ AN A io' (db_header d1) D1 HD1 HI (or_introl eq_refl) (header_same b d1 G A io' HD1 HI)) as (d2 & C1 & C2 & C3). rewrite D3, HK in C1. rewrite D2 in C2.
      destruct (stores_rows b d2 G A r i t q C3) as (rows & R1 & R2); [now rewrite C2|exact HPA|exact HV|]. exists d2, rows. now repeat split.
  - intros d1 HD. assert (find_table (PT r) (set_last (PT r) m (db_header d)) = Some (i, mk_table (tb_type t) (tb_empty t) (tb_first t) m)) as HT2 by now apply find_set_last.
    split; [|split].
    + intros j d2 HJ HF. destruct (c108_between b k io d G A second d1 j d2 HB HL HO HP HA HW2 HD HJ HF) as (d3 & B1 & B2 & B3 & B4). fold st in B3, B4. rewrite EV2, EW2 in B3, B4. cbn [fst snd] in B3, B4.
      assert (forall x, In x (q ++ [m]) -> parted j AN AN x = AN x) as HE by (intros x _; unfold parted; now destruct (x <? j)). rewrite <- ER, <- (rows_eq AN (parted j AN AN) _ HE). apply (B4 r i _ (q ++ [m]) HT2).
      * cbn [tb_last tb_first]. now apply (path_eq AN).
      * now rewrite (rows_eq AN _ _ HE), ER.
    + intros j io' HJ HF. destruct (c108_interrupted b k io d G A second d1 j io' HB HL HO HP HA HW2 HD HF) as (d3 & B1 & B2 & B3 & B4). fold st in B3, B4. rewrite EV2, EW2 in B3, B4. cbn [fst snd] in B3, B4.
      assert (forall x, In x (q ++ [m]) -> spliced j AN AN x = AN x) as HE.
      { intros x Hx. unfold spliced. destruct (x <? j); [easy|]. destruct (x =? j) eqn:E; [|easy]. assert (x = j) as -> by lia. exfalso. apply HJ. apply in_app_or in Hx as [Hx|[<-|[]]]; [now right|now left]. }
      rewrite <- ER, <- (rows_eq AN (spliced j AN AN) _ HE). apply (B4 r i _ (q ++ [m]) HT2).
      * cbn [tb_last tb_first]. now apply (path_eq AN).
      * now rewrite (rows_eq AN _ _ HE), ER.
    + intros io' H256 HI. rewrite <- HK in HW2. destruct (tasks_stores b d second d1 HD G st HST eq_refl HW2) as (D1 & D2 & D3). pose proof (tasks_on_file b d second d1 HD G st st HST eq_refl HW2 HOF) as HD1. rewrite EV2 in HD1. rewrite EW2 in D1, D2.
      assert (fst (tasks_saved st st second) = db_header d) as EV3 by reflexivity. rewrite EV3 in HD1. cbn [fst snd] in D1, D2. destruct (header_bytes b d1 G _ AN io' HD1) as [B1 B2]; [rewrite D2; unfold set_last; cbn [dh_tables]; now rewrite len_set_last|exact HI|].
      rewrite D2 in B2. destruct (set_last_cut (PT r) m (db_header d) i t io' HT H256 B1 B2) as [HH|HH].
      * left. destruct (header_cut b d1 G _ AN AN io' (db_header d) D1 HD1 HI (or_introl eq_refl) HH) as (d2 & C1 & C2 & C3). rewrite D3, HK in C1. destruct (stores_rows b d2 G AN r i t q C3) as (rows & R1 & R2);
          [now rewrite C2|apply (path_like A); [exact HPA|exact EAQ|eexists; exact EAL]|now rewrite (rows_like A AN q ERQ)|]. rewrite (rows_like A AN q ERQ) in R2. exists d2, rows. now repeat split.
      * right. destruct (header_cut b d1 G _ AN AN io' (set_last (PT r) m (db_header d)) D1 HD1 HI) as (d2 & C1 & C2 & C3); [right; now rewrite D2|exact HH|]. rewrite D3, HK in C1. destruct (stores_rows b d2 G AN r i (mk_table (tb_type t) (tb_empty t) (tb_first t) m) (q ++ [m]) C3) as (rows & R1 & R2);
          [rewrite C2; exact HT2|exact HPW|now rewrite ER|]. rewrite ER in R2. exists d2, rows. now repeat split.
Qed.
Print Assumptions c108_two_saves.

(** ** Example: the pages of C80, with two saves *)
Definition c108_label (d : database) (j n : N) : database := let '(d1, r) := load_page Debug d j in match r with DOk p => set_page d1 j (relabel n (PT KKey) p) | _ => d1 end.
Definition c108_first : database :=
  let '(d, r) := load_page Debug (c108_label (c108_label (c80_open 1) 1 2) 2 9) 2 in match r with DOk p => match run Debug [(11, Some c18_new)] p with Ok p' => set_page d 2 p' | _ => d end | _ => d end.
Definition c108_second : database := match flush Debug c108_first with DOk d => with_header d (set_last (PT KKey) 2 (db_header d)) | _ => c108_first end.
Definition c108_tasks1 : list task := [TLabel 1 2 (PT KKey); TLabel 2 9 (PT KKey); TActs c78_tables [AInsert 2 [(11, Some c18_new)]]].
Definition c108_tasks2 : list task := c108_tasks1 ++ [TActs c78_tables [ASave]; THeader (set_last (PT KKey) 2)].
Definition c108_cut (d : database) (j : N) : list N := match flush Debug (unload_from d j) with DOk d1 => db_io d1 | _ => [] end.
Lemma c108_runs1 : tasks Debug (c80_open 1) c108_tasks1 c108_first.
Proof.
  unfold c108_tasks1. eapply tasks_cons; [eapply performs_label; vm_compute; reflexivity|]. eapply tasks_cons; [eapply performs_label; vm_compute; reflexivity|].
  eapply tasks_cons; [apply performs_acts; eapply acts_cons; [eapply does_insert; vm_compute; reflexivity|apply acts_nil]|].
  match goal with |- tasks _ ?x _ _ => replace c108_first with x by (vm_compute; reflexivity) end. apply tasks_nil.
Qed.
Lemma c108_runs2 : tasks Debug (c80_open 1) c108_tasks2 c108_second.
Proof.
  unfold c108_tasks2, c108_tasks1. cbn [app]. eapply tasks_cons; [eapply performs_label; vm_compute; reflexivity|]. eapply tasks_cons; [eapply performs_label; vm_compute; reflexivity|].
  eapply tasks_cons; [apply performs_acts; eapply acts_cons; [eapply does_insert; vm_compute; reflexivity|apply acts_nil]|].
  eapply tasks_cons; [apply performs_acts; eapply acts_cons; [eapply does_save; vm_compute; reflexivity|apply acts_nil]|]. eapply tasks_cons; [apply performs_header|].
  match goal with |- tasks _ ?x _ _ => replace c108_second with x by (vm_compute; reflexivity) end. apply tasks_nil.
Qed.
(** The hypotheses of [c108_two_saves] hold. *)
Example c108_example_hyp :
  (exists d1, tasks Debug (c80_open 1) c108_tasks1 d1 /\ (forall j d2, 1 <= j -> flush Debug (unload_from d1 j) = DOk d2 -> shown Debug DbPlain KKey (db_io d2) (map snd c18_rows)) /\
    (forall io', interrupted Debug d1 2 io' -> shown Debug DbPlain KKey io' (map snd c18_rows)) /\ (forall io', interrupted_header d1 io' -> shown Debug DbPlain KKey io' (map snd c18_rows))) /\
  (exists d1, tasks Debug (c80_open 1) c108_tasks2 d1 /\ (forall j d2, 1 <= j -> flush Debug (unload_from d1 j) = DOk d2 -> shown Debug DbPlain KKey (db_io d2) (map snd c18_rows ++ [c18_new])) /\
    (forall io', interrupted_header d1 io' -> shown Debug DbPlain KKey io' (map snd c18_rows) \/ shown Debug DbPlain KKey io' (map snd c18_rows ++ [c18_new]))).
Proof.
  destruct (c80_example_hyp 1 (or_introl eq_refl)) as (H1 & H2 & H3 & H4 & H5).
  destruct (c108_two_saves Debug DbPlain (c80_io 1) (c80_open 1) (fun _ => GGrow) (c80_shelves 1) KKey 1 (mk_table (PT KKey) 9 1 1) [1] (mk_shelf (PT KKey) 6 112 3 (map snd c18_rows)) 2 (mk_shelf (PT KGenre) 9 158 0 []) 9 [(11, Some c18_new)] c78_tables)
    as (_ & HF & HS);
    [exact H1|vm_compute; reflexivity|exact H2|vm_compute; discriminate|vm_compute; discriminate|exact H3|reflexivity|exact H4|reflexivity|reflexivity|reflexivity|discriminate|reflexivity|reflexivity|reflexivity|reflexivity|reflexivity|reflexivity|exact H5|repeat constructor|].
  split.
  - exists c108_first. split; [exact c108_runs1|]. destruct (HF _ c108_runs1) as (F1 & F2 & F3). split; [exact F1|]. split; [intro io'; apply F2; intros [E|[]]; discriminate|exact F3].
  - exists c108_second. split; [exact c108_runs2|]. destruct (HS _ c108_runs2) as (F1 & _ & F3). split; [exact F1|]. intro io'. now apply F3.
Qed.
(** The files in between are different from each other. *)
Example c108_example : list_eqb (c108_cut c108_first 1) (c108_cut c108_first 2) = false /\ list_eqb (c108_cut c108_first 2) (c108_cut c108_first 3) = false /\ list_eqb (c108_cut c108_first 3) (c108_cut c108_second 1) = false /\
  forallb (fun io => match db_open io DbPlain with DOk d => match snd (iter_rows Debug KKey d) with Some (DOk rows) => len rows =? 2 | _ => false end | _ => false end) [c108_cut c108_first 1; c108_cut c108_first 2; c108_cut c108_first 3] = true /\
  exists d, db_open (c108_cut c108_second 1) DbPlain = DOk d /\ snd (iter_rows Debug KKey d) = Some (DOk (map snd c18_rows ++ [c18_new])).
Proof. repeat (split; [vm_compute; reflexivity|]). eexists. split; [vm_compute; reflexivity|]. vm_compute. reflexivity. Qed.
(** ** One save is not enough *)
(** The program of C80 saves once.  If it is interrupted after the header, the table cannot be read, although none of its pages has been written and the file is otherwise intact. *)
Definition c108_once : database :=
  let d := c108_label (c108_label (c80_open 1) 1 2) 2 9 in let '(d2, r) := load_page Debug (with_header d (set_last (PT KKey) 2 (db_header d))) 2 in
  match r with DOk p => match run Debug [(11, Some c18_new)] p with Ok p' => set_page d2 2 p' | _ => d2 end | _ => d2 end.
Theorem c108_one_save_refuted : exists io d d1 d2 d3, db_open io DbPlain = DOk d /\ snd (iter_rows Debug KKey d) = Some (DOk (map snd c18_rows)) /\
  tasks Debug d (c80_tasks 1 2) d1 /\ flush Debug (unload_from d1 1) = DOk d2 /\ db_open (db_io d2) DbPlain = DOk d3 /\ (forall rows, snd (iter_rows Debug KKey d3) <> Some (DOk rows)) /\
  exists p, snd (load_page Debug d3 1) = DOk p /\ rows_of_page p = map snd c18_rows.
Proof.
  exists (c80_io 1), (c80_open 1), c108_once. eexists _, _. split; [apply c80_example_hyp; auto|]. split; [vm_compute; reflexivity|]. split; [|split; [vm_compute; reflexivity|split; [vm_compute; reflexivity|split]]].
  - unfold c80_tasks. eapply tasks_cons; [eapply performs_label; vm_compute; reflexivity|]. eapply tasks_cons; [eapply performs_label; vm_compute; reflexivity|]. eapply tasks_cons; [apply performs_header|].
    eapply tasks_cons; [apply performs_acts; eapply acts_cons; [eapply does_insert; vm_compute; reflexivity|apply acts_nil]|].
    match goal with |- tasks _ ?x _ _ => replace c108_once with x by (vm_compute; reflexivity) end. apply tasks_nil.
  - intro rows. vm_compute. discriminate.
  - eexists. split; [vm_compute; reflexivity|]. reflexivity.
Qed.
Print Assumptions c108_one_save_refuted.
