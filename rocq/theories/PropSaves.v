(** * Property C106: how often programs save, and how the work is divided among programs, does not show in the file *)
From Coq Require Import NArith ZArith List Bool Lia.
From Coq Require Import ZifyBool ZifyNat ZifyN.
From Verif Require Import Base BaseFacts Segs Str StrFacts StrGood Schema SchemaFacts Oa OaFacts OaSpec Rows RowFacts RowSpec Page BitFacts PageFacts PageRw PageSpec IndexSpec Alloc AllocFacts AllocSpec
  Db DbFacts DbFlush DbFresh Reread Progress Insert Session Delete Revise Relink Untouched Remains PropUntouched PropAlloc PropSession PropRevise Cut PropCut PropRelink Saves.
Import ListNotations.
Open Scope N_scope.

Lemma good_filed_as b d i p : bytes_ok (db_io d) -> len (db_io d) < 2 ^ 64 - 1 -> good_page b d GGrow i p -> snug p -> filed_as b (db_io d) (dh_page_size (db_header d)) i (db_kind d) p (db_io d).
Proof.
  intros HB HL HG HS. assert (tail_kept (dh_page_size (db_header d)) (db_io d) i p) as HT. { destruct HG as (_ & _ & _ & _ & HG & _). destruct (HG eq_refl) as (h & c & -> & _). exact I. }
  destruct (good_steady b d GGrow i p HB HL HG HT) as (l & [HP _] & HSI). destruct HG as (_ & _ & _ & _ & HG & _). split; [now apply HG|]. split; [exact HS|]. exists l. split; [exact HP|]. split; [|easy]. intros x v HV. now apply (val_in _ l).
Qed.
(** Programs as in C80 on the same file, two ways.  If they do the same to a page, in the same order, then its bytes are the same,
    whatever they do to other pages, and wherever they save the file, or close it and open it again.
    The page must have been read from the file with rows in the last slot of each group, programs may insert rows into it and change its type and link. *)
Theorem c106_page : forall b k io d G A ls io1 G' A' ls' io2 i p x,
  bytes_ok io -> len io < 2 ^ 64 - 1 -> db_open io k = DOk d -> 28 + 16 * len (dh_tables (db_header d)) <= dh_page_size (db_header d) ->
  (forall i s, A i = Some s -> exists p, good_page b d (G i) i p /\ like s p) -> tasks_ok b k G (db_header d, A) (concat ls) -> jobs b k io ls io1 ->
  (forall i s, A' i = Some s -> exists p, good_page b d (G' i) i p /\ like s p) -> tasks_ok b k G' (db_header d, A') (concat ls') -> jobs b k io ls' io2 ->
  good_page b d GGrow i p -> snug p -> (i + 1) * dh_page_size (db_header d) <= len io ->
  ~ In i (reworked (concat ls)) -> ~ In i (reworked (concat ls')) -> edits i (concat ls) = edits i (concat ls') ->
  i * dh_page_size (db_header d) <= x -> x < (i + 1) * dh_page_size (db_header d) -> getN io1 x = getN io2 x.
Proof.
  intros b k io d G A ls io1 G' A' ls' io2 i p x HB HL HO HP HA HT HJ HA' HT' HJ' HG HS HIN HR HR' HE X1 X2. pose proof (open_none io k d HO) as [EIO _]. pose proof (open_kind io k d HO) as HK. pose proof HG as (H1 & H2 & _).
  assert (stores b d G A) as HST by (now apply (open_stores b io k)). assert (stores b d G' A') as HST' by (now apply (open_stores b io k)).
  assert (filed_as b io (dh_page_size (db_header d)) i k p io) as HF. { rewrite <- EIO, <- HK. apply good_filed_as; try easy; now rewrite EIO. }
  destruct (jobs_tracks b io _ i H1 k io ls io1 HJ d G (db_header d, A) p HO eq_refl H2 HST eq_refl HT HR HIN HF) as (P1 & E1 & (_ & _ & l1 & L1 & F1)).
  destruct (jobs_tracks b io _ i H1 k io ls' io2 HJ' d G' (db_header d, A') p HO eq_refl H2 HST' eq_refl HT' HR' HIN HF) as (P2 & E2 & (_ & _ & l2 & L2 & F2)).
  rewrite HE, E2 in E1. injection E1 as ->. assert (l2 = l1) as -> by (apply (pieces_fun b (dh_page_size (db_header d)) (i * dh_page_size (db_header d)) P1); easy). now apply (fills_fun io io1 io2 (dh_page_size (db_header d)) i l1 x).
Qed.
Print Assumptions c106_page.
(** If this holds of every page that is asked for, and the headers are the same in the end, then the files are the same. *)
Theorem c106_file : forall b k io d G A ls io1 G' A' ls' io2,
  bytes_ok io -> len io < 2 ^ 64 - 1 -> db_open io k = DOk d -> 28 + 16 * len (dh_tables (db_header d)) <= dh_page_size (db_header d) -> dh_page_size (db_header d) <= len io ->
  (forall i s, A i = Some s -> exists p, good_page b d (G i) i p /\ like s p) -> tasks_ok b k G (db_header d, A) (concat ls) -> jobs b k io ls io1 -> ls <> [] ->
  (forall i s, A' i = Some s -> exists p, good_page b d (G' i) i p /\ like s p) -> tasks_ok b k G' (db_header d, A') (concat ls') -> jobs b k io ls' io2 -> ls' <> [] ->
  (forall i, In i (asked (concat ls)) \/ In i (asked (concat ls')) -> exists p, good_page b d GGrow i p /\ snug p /\ (i + 1) * dh_page_size (db_header d) <= len io /\
     ~ In i (reworked (concat ls)) /\ ~ In i (reworked (concat ls')) /\ edits i (concat ls) = edits i (concat ls')) ->
  fst (tasks_work (db_header d, A) (concat ls)) = fst (tasks_work (db_header d, A') (concat ls')) -> io1 = io2.
Proof.
  intros b k io d G A ls io1 G' A' ls' io2 HB HL HO HP HPL HA HT HJ HN HA' HT' HJ' HN' HI HH. set (ps := dh_page_size (db_header d)) in *.
  destruct (c104_length b k io d G A ls io1 HB HL HO HP HA HT HJ) as [_ L1]. specialize (L1 HPL). fold ps in L1. assert (len io1 = len io) as E1 by (apply L1; intros i Hi; destruct (HI i (or_introl Hi)) as (_ & _ & _ & X & _); exact X).
  destruct (c104_length b k io d G' A' ls' io2 HB HL HO HP HA' HT' HJ') as [_ L2]. specialize (L2 HPL). fold ps in L2. assert (len io2 = len io) as E2 by (apply L2; intros i Hi; destruct (HI i (or_intror Hi)) as (_ & _ & _ & X & _); exact X).
  apply list_ext. intro x. destruct (N.lt_ge_cases x (len io)) as [XL|XL].
  2:{ assert (getN io1 x = None) as -> by (apply getN_None; lia). symmetry. apply getN_None. lia. }
  destruct (N.lt_ge_cases x ps) as [XP|XP].
  - pose proof (c104_header b k io d G A ls io1 HB HL HO HP HA HT HJ HN) as H1. pose proof (c104_header b k io d G' A' ls' io2 HB HL HO HP HA' HT' HJ' HN') as H2. cbv zeta in H1, H2. rewrite <- HH in H2.
    destruct (tasks_next b k G (concat ls) (db_header d, A) HT) as [_ N2]. cbn [fst] in N2. fold ps in N2. set (h := fst (tasks_work (db_header d, A) (concat ls))) in *. apply has_get in H1 as [_ H1]. apply has_get in H2 as [_ H2].
    assert (x < len (dbhdr_enc h ++ zeros (dh_page_size h - len (dbhdr_enc h)))) as HX by (rewrite len_app, len_zeros; lia). specialize (H1 x HX). specialize (H2 x HX). rewrite N.add_0_l in H1, H2. congruence.
  - assert (0 < ps) as H0 by lia. pose proof (N.div_mod' x ps) as HD. pose proof (N.mod_lt x ps) as HM. destruct (in_dec N.eq_dec (x / ps) (asked (concat ls) ++ asked (concat ls'))) as [HX|HX].
    + apply in_app_iff in HX. destruct (HI (x / ps) HX) as (p & P1 & P2 & P3 & P4 & P5 & P6). apply (c106_page b k io d G A ls io1 G' A' ls' io2 (x / ps) p x); try easy; fold ps; nia.
    + rewrite in_app_iff in HX. rewrite (c104_unasked b k io d G A ls io1 x); try easy; [|tauto]. rewrite (c104_unasked b k io d G' A' ls' io2 x); try easy. tauto.
Qed.
Print Assumptions c106_file.

(** ** Saving once *)
(** The same tasks without saves. *)
Definition unsaved (l : list task) : list task :=
  map (fun a => match a with TActs P l => TActs P (filter (fun a => match a with ASave => false | _ => true end) l) | _ => a end) l.
Lemma unsaved_acts b h G P : forall l A, acts_ok b h G P A l -> acts_ok b h G P A (filter (fun a => match a with ASave => false | _ => true end) l).
Proof. induction l as [|a l IH]; intros A H; [exact I|]. cbn [acts_ok] in H. destruct H as [H1 H2]. destruct a; cbn [filter acts_ok act_work] in *; try (split; [exact H1|now apply IH]). now apply IH. Qed.
Lemma unsaved_work P : forall l A, acts_work P A (filter (fun a => match a with ASave => false | _ => true end) l) = acts_work P A l.
Proof. unfold acts_work. induction l as [|a l IH]; intros A; [reflexivity|]. destruct a; cbn [filter fold_left act_work]; apply IH. Qed.
Lemma unsaved_task st a a' l : unsaved (a :: l) = a' :: unsaved l -> task_work st a' = task_work st a.
Proof. cbn [unsaved map]. intros [= <-]. destruct a; cbn [task_work]; [now rewrite unsaved_work|reflexivity|reflexivity]. Qed.
Lemma unsaved_ok b k G : forall l st, tasks_ok b k G st l -> tasks_ok b k G st (unsaved l).
Proof.
  induction l as [|a l IH]; intros st H; [exact I|]. cbn [tasks_ok] in H. destruct H as [H1 H2]. cbn [unsaved map]. fold (unsaved l). cbn [tasks_ok]. rewrite (unsaved_task st a _ l) by reflexivity. split; [|now apply IH].
  destruct a; cbn [task_ok] in *; [now apply unsaved_acts|exact H1|exact H1].
Qed.
Lemma unsaved_works : forall l st, tasks_work st (unsaved l) = tasks_work st l.
Proof.
  unfold tasks_work. induction l as [|a l IH]; intro st; [reflexivity|]. cbn [unsaved map]. fold (unsaved l). cbn [fold_left]. rewrite (unsaved_task st a _ l) by reflexivity. apply IH.
Qed.
Lemma unsaved_flat {A} (f : (rkind -> list N) -> act -> list A) (g : task -> list A) : (forall P, f P ASave = []) -> (forall P l, g (TActs P l) = flat_map (f P) l) -> forall l, flat_map g (unsaved l) = flat_map g l.
Proof.
  intros HF HG. induction l as [|a l IH]; [reflexivity|]. cbn [unsaved map]. fold (unsaved l). cbn [flat_map]. rewrite IH. f_equal. destruct a as [P as'|j n t|h]; [|reflexivity|reflexivity]. rewrite !HG.
  induction as' as [|a as' IHa]; [reflexivity|]. destruct a; cbn [filter flat_map]; rewrite ?HF, IHa; reflexivity.
Qed.
Lemma unsaved_edits i l : edits i (unsaved l) = edits i l.
Proof. exact (unsaved_flat (fun _ => act_edits i) (task_edits i) (fun _ => eq_refl) (fun _ _ => eq_refl) l). Qed.
Lemma unsaved_reworked l : reworked (unsaved l) = reworked l.
Proof. exact (unsaved_flat act_reworks task_reworks (fun _ => eq_refl) (fun _ _ => eq_refl) l). Qed.
Lemma unsaved_asked l : asked (unsaved l) = asked l.
Proof. exact (unsaved_flat act_asks task_asks (fun _ => eq_refl) (fun _ _ => eq_refl) l). Qed.
(** One program that does all the work and saves at the end writes the same file. *)
Theorem c106_once : forall b k io d G A ls io1,
  bytes_ok io -> len io < 2 ^ 64 - 1 -> db_open io k = DOk d -> 28 + 16 * len (dh_tables (db_header d)) <= dh_page_size (db_header d) -> dh_page_size (db_header d) <= 4096 -> dh_page_size (db_header d) <= len io ->
  (forall i s, A i = Some s -> exists p, good_page b d (G i) i p /\ like s p) -> tasks_ok b k G (db_header d, A) (concat ls) -> jobs b k io ls io1 -> ls <> [] ->
  (forall i, In i (asked (concat ls)) -> exists p, good_page b d GGrow i p /\ snug p /\ (i + 1) * dh_page_size (db_header d) <= len io) -> reworked (concat ls) = [] ->
  jobs b k io [unsaved (concat ls)] io1.
Proof.
  intros b k io d G A ls io1 HB HL HO HP H4 HPL HA HT HJ HN HI HR. assert (concat [unsaved (concat ls)] = unsaved (concat ls)) as EC by (cbn [concat]; apply app_nil_r).
  destruct (c80_run b k io d G A [unsaved (concat ls)]) as [io2 HJ2]; try easy; [rewrite EC; now apply unsaved_ok|]. assert (io1 = io2) as ->; [|exact HJ2].
  apply (c106_file b k io d G A ls io1 G A [unsaved (concat ls)] io2); try easy; [rewrite EC; now apply unsaved_ok| |now rewrite EC, unsaved_works].
  intros i Hi. rewrite EC, unsaved_asked in Hi. destruct (HI i) as (p & P1 & P2 & P3); [tauto|]. exists p. rewrite EC, unsaved_reworked, unsaved_edits, HR. now repeat (split; [easy|]).
Qed.
Print Assumptions c106_once.

(** ** Example: page 1 has keys, page 2 is empty.  Three programs: the first one inserts keys in page 1 and saves in between, the second one makes page 2 a page for keys, the third one inserts keys in both.
    The other way, page 2 comes first. *)
Definition c106_jobs : list (list task) :=
  [[TActs c78_tables [AInsert 1 [(11, Some c18_new)]; ASave; ASave; AInsert 1 [(11, Some c18_new)]]]; [TLabel 2 7 (PT KKey)]; [TActs c78_tables [AInsert 1 [(11, Some c18_new)]; AInsert 2 [(11, Some c18_new)]; ASave]]].
Definition c106_jobs' : list (list task) :=
  [[TLabel 2 7 (PT KKey); TActs c78_tables [AInsert 2 [(11, Some c18_new)]; AInsert 1 [(11, Some c18_new); (11, Some c18_new); (11, Some c18_new)]]]].
Example c106_example : exists io', jobs Debug DbPlain (c80_io 1) c106_jobs io' /\ jobs Debug DbPlain (c80_io 1) c106_jobs' io' /\ jobs Debug DbPlain (c80_io 1) [unsaved (concat c106_jobs)] io' /\ io' <> c80_io 1.
Proof.
  destruct (c80_example_hyp 1 (or_introl eq_refl)) as (H1 & H2 & H3 & H4 & H5). assert (len (c80_io 1) = 594) as HLN by (vm_compute; reflexivity).
  assert (Forall (op_fine Debug (PT KKey)) [(11, Some c18_new); (11, Some c18_new); (11, Some c18_new)]) as H5' by (pose proof (Forall_inv H5) as HX; exact (Forall_cons _ HX (Forall_cons _ HX (Forall_cons _ HX (Forall_nil _))))).
  assert (tasks_ok Debug DbPlain (fun _ => GGrow) (db_header (c80_open 1), c80_shelves 1) (concat c106_jobs)) as HT.
  { cbn [concat c106_jobs app tasks_ok]. split; [|split; [|split; [|exact I]]].
    - cbn [task_ok acts_ok fst snd]. split; [|split; [exact I|split; [exact I|split; [|exact I]]]]; (eexists; split; [reflexivity|]; right; split; [reflexivity|exact H5]).
    - cbn [task_ok fst snd]. eexists. split; [reflexivity|]. split; [discriminate|]. split; [reflexivity|]. split; [cbn; auto 20|]. right. reflexivity.
    - cbn [task_ok acts_ok fst snd]. split; [|split; [|split; exact I]]; (eexists; split; [reflexivity|]; right; split; [reflexivity|exact H5]). }
  assert (tasks_ok Debug DbPlain (fun _ => GGrow) (db_header (c80_open 1), c80_shelves 1) (concat c106_jobs')) as HT'.
  { cbn [concat c106_jobs' app tasks_ok]. split; [|split; [|exact I]].
    - cbn [task_ok fst snd]. eexists. split; [reflexivity|]. split; [discriminate|]. split; [reflexivity|]. split; [cbn; auto 20|]. right. reflexivity.
    - cbn [task_ok acts_ok fst snd]. split; [|split; [|exact I]]; (eexists; split; [reflexivity|]; right; split; [reflexivity|]); [exact H5|exact H5']. }
  assert (forall i, i = 1 \/ i = 2 -> exists p, good_page Debug (c80_open 1) GGrow i p /\ snug p /\ (i + 1) * dh_page_size (db_header (c80_open 1)) <= len (c80_io 1)) as HP.
  { intros i [->| ->].
    - destruct (H3 1 _ eq_refl) as (p & HG & _). exists p. split; [exact HG|]. split; [|vm_compute; discriminate]. pose proof HG as (_ & _ & _ & _ & _ & z & HR).
      assert (rd_page Debug (rd_dstr_strict Debug) (dh_page_size (db_header (c80_open 1))) (db_kind (c80_open 1)) (db_io (c80_open 1)) (1 * dh_page_size (db_header (c80_open 1))) = Ok (c75_page, 396)) as HR' by (vm_compute; reflexivity).
      rewrite HR' in HR. injection HR as <- _. intros k HK. change (c_rows (ph_counts (pg_header c75_page))) with 3 in *. assert (k = 0) as -> by lia. reflexivity.
    - destruct (H3 2 _ eq_refl) as (p & HG & (_ & _ & _ & L4 & _)). exists p. split; [exact HG|]. split; [|vm_compute; discriminate]. destruct HG as (_ & _ & _ & _ & HG & _). destruct (HG eq_refl) as (h & c & -> & _).
      unfold snug. cbn [pg_content pg_header] in *. rewrite L4. cbn [sh_slots]. intros k HK. lia. }
  destruct (c80_run Debug DbPlain (c80_io 1) (c80_open 1) (fun _ => GGrow) (c80_shelves 1) c106_jobs) as [io' HJ]; [exact H1|rewrite HLN; reflexivity|exact H2|vm_compute; discriminate|vm_compute; discriminate|exact H3|exact HT|].
  destruct (c80_run Debug DbPlain (c80_io 1) (c80_open 1) (fun _ => GGrow) (c80_shelves 1) c106_jobs') as [io2 HJ']; [exact H1|rewrite HLN; reflexivity|exact H2|vm_compute; discriminate|vm_compute; discriminate|exact H3|exact HT'|].
  assert (io' = io2) as <-.
  { apply (c106_file Debug DbPlain (c80_io 1) (c80_open 1) (fun _ => GGrow) (c80_shelves 1) c106_jobs io' (fun _ => GGrow) (c80_shelves 1) c106_jobs' io2);
    [exact H1|rewrite HLN; reflexivity|exact H2|vm_compute; discriminate|rewrite HLN; vm_compute; discriminate|exact H3|exact HT|exact HJ|discriminate|exact H3|exact HT'|exact HJ'|discriminate| |reflexivity].
    intros i Hi. assert (i = 1 \/ i = 2) as Hi2 by (cbn in Hi; lia). destruct (HP i Hi2) as (p & P1 & P2 & P3). exists p. repeat (split; [assumption|]). split; [intros []|]. split; [intros []|]. destruct Hi2 as [->| ->]; reflexivity. }
  exists io'. split; [exact HJ|]. split; [exact HJ'|]. split.
  - apply (c106_once Debug DbPlain (c80_io 1) (c80_open 1) (fun _ => GGrow) (c80_shelves 1)); [exact H1|rewrite HLN; reflexivity|exact H2|vm_compute; discriminate|vm_compute; discriminate|rewrite HLN; vm_compute; discriminate|exact H3|exact HT|exact HJ|discriminate| |reflexivity].
    intros i Hi. apply HP. cbn in Hi. lia.
  - intros ->. destruct (c80_jobs Debug DbPlain (c80_io 1) (c80_open 1) (fun _ => GGrow) (c80_shelves 1) c106_jobs (c80_io 1)) as (d' & D1 & _ & _ & D4); [exact H1|rewrite HLN; reflexivity|exact H2|vm_compute; discriminate|exact H3|exact HT|exact HJ|].
    destruct (D4 KKey 1 (mk_table (PT KKey) 9 1 1) [1]) as (rows & R1 & R2); [reflexivity|cbn [tb_last tb_first]; eapply path_last; reflexivity|reflexivity|]. apply Forall2_len in R2. assert (d' = c80_open 1) as -> by (rewrite H2 in D1; now injection D1). vm_compute in R1. injection R1 as <-. discriminate R2.
Qed.

(** ** Deletions, and slots without a row *)
Definition c106_acts (l : list act) (io : list N) : list N :=
  let step r a := match r with
    | Some d => match a with
      | AInsert j ops => let '(d1, r) := load_page Debug d j in match r with DOk p => match run Debug ops p with Ok p' => Some (set_page d1 j p') | _ => None end | _ => None end
      | ADelete j i => let '(d1, r) := load_page Debug d j in match r with DOk p => match delete_row Debug i p with Ok p' => Some (set_page d1 j p') | _ => None end | _ => None end
      | ASave => match flush Debug d with DOk d1 => Some d1 | _ => None end
      | _ => None end
    | None => None end in
  match db_open io DbPlain with DOk d => match fold_left step l (Some d) with Some d1 => match flush Debug d1 with DOk d2 => db_io d2 | _ => [] end | None => [] end | _ => [] end.
(** What a deleted row leaves behind depends on whether it had been saved. *)
Theorem c106_delete_refuted : exists l l' io1 io2, unsaved l' = l /\ unsaved l = l /\ jobs Debug DbPlain (c80_io 1) [l] io1 /\ jobs Debug DbPlain (c80_io 1) [l'] io2 /\ io1 <> io2.
Proof.
  exists [TActs c78_tables [AInsert 1 [(11, Some c18_new)]; ADelete 1 2]], [TActs c78_tables [AInsert 1 [(11, Some c18_new)]; ASave; ADelete 1 2]],
    (c106_acts [AInsert 1 [(11, Some c18_new)]; ADelete 1 2] (c80_io 1)), (c106_acts [AInsert 1 [(11, Some c18_new)]; ASave; ADelete 1 2] (c80_io 1)).
  split; [reflexivity|]. split; [reflexivity|]. split; [|split].
  - eapply jobs_cons; [|apply jobs_nil]. eexists _, _, _. split; [apply c80_example_hyp; auto|]. split; [|split].
    + eapply tasks_cons; [|apply tasks_nil]. apply performs_acts. eapply acts_cons; [eapply does_insert; vm_compute; reflexivity|]. eapply acts_cons; [eapply does_delete; vm_compute; reflexivity|]. apply acts_nil.
    + vm_compute; reflexivity.
    + vm_compute; reflexivity.
  - eapply jobs_cons; [|apply jobs_nil]. eexists _, _, _. split; [apply c80_example_hyp; auto|]. split; [|split].
    + eapply tasks_cons; [|apply tasks_nil]. apply performs_acts. eapply acts_cons; [eapply does_insert; vm_compute; reflexivity|]. eapply acts_cons; [eapply does_save; vm_compute; reflexivity|].
      eapply acts_cons; [eapply does_delete; vm_compute; reflexivity|]. apply acts_nil.
    + vm_compute; reflexivity.
    + vm_compute; reflexivity.
  - vm_compute. discriminate.
Qed.
Print Assumptions c106_delete_refuted.
(** The place that was reserved for a slot without a row is forgotten when the file is opened again: another row in a later slot, and the entry of the slot in the file is different. *)
Theorem c106_reserve_refuted : exists a a' io1 io2, jobs Debug DbPlain (c80_io 1) [[TActs c78_tables [a; a']]] io1 /\ jobs Debug DbPlain (c80_io 1) [[TActs c78_tables [a]]; [TActs c78_tables [a']]] io2 /\ io1 <> io2.
Proof.
  exists (AInsert 1 [(8, None)]), (AInsert 1 [(11, Some c18_new)]), (c106_acts [AInsert 1 [(8, None)]; AInsert 1 [(11, Some c18_new)]] (c80_io 1)), (c106_acts [AInsert 1 [(11, Some c18_new)]] (c106_acts [AInsert 1 [(8, None)]] (c80_io 1))).
  split; [|split].
  - eapply jobs_cons; [|apply jobs_nil]. eexists _, _, _. split; [apply c80_example_hyp; auto|]. split; [|split].
    + eapply tasks_cons; [|apply tasks_nil]. apply performs_acts. eapply acts_cons; [eapply does_insert; vm_compute; reflexivity|]. eapply acts_cons; [eapply does_insert; vm_compute; reflexivity|]. apply acts_nil.
    + vm_compute; reflexivity.
    + vm_compute; reflexivity.
  - apply (jobs_cons Debug DbPlain _ _ (c106_acts [AInsert 1 [(8, None)]] (c80_io 1))).
    + eexists _, _, _. split; [apply c80_example_hyp; auto|]. split; [|split].
      * eapply tasks_cons; [|apply tasks_nil]. apply performs_acts. eapply acts_cons; [eapply does_insert; vm_compute; reflexivity|]. apply acts_nil.
      * vm_compute; reflexivity.
      * vm_compute; reflexivity.
    + eapply jobs_cons; [|apply jobs_nil]. eexists _, _, _. split; [vm_compute; reflexivity|]. split; [|split].
      * eapply tasks_cons; [|apply tasks_nil]. apply performs_acts. eapply acts_cons; [eapply does_insert; vm_compute; reflexivity|]. apply acts_nil.
      * vm_compute; reflexivity.
      * vm_compute; reflexivity.
  - vm_compute. discriminate.
Qed.
Print Assumptions c106_reserve_refuted.
