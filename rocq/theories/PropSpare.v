(** * Property C107: assigning to rows changes no byte of the rows that are not assigned to *)
From Coq Require Import NArith ZArith List Bool Lia.
From Coq Require Import ZifyBool ZifyNat ZifyN.
From Verif Require Import Base BaseFacts Segs Str StrFacts StrGood Schema SchemaFacts Oa OaFacts OaSpec Rows RowFacts RowSpec Page BitFacts PageFacts PageRw PageSpec IndexSpec Alloc AllocFacts AllocSpec
  Db DbFacts DbFlush DbFresh Reread Progress Insert Session Delete Revise Relink Untouched Remains Spare PropAlloc PropSession PropRevise Cut PropCut PropRelink PropRemains PropString.
Import ListNotations.
Open Scope N_scope.

Lemma good_kept b d i h c u F : bytes_ok (db_io d) -> len (db_io d) < 2 ^ 64 - 1 -> good_page b d GGrow i (mk_page h (PData c)) -> u < ph_used h -> Forall (fun y => In y F \/ aside b u y) (dc_rows c) ->
  kept b (db_kind d) (dh_page_size (db_header d)) i u F (db_io d).
Proof.
  intros HB HL HG HU HF. set (ps := dh_page_size (db_header d)) in *. destruct (good_steady b d GGrow i _ HB HL HG I) as (l & [HP HE] & HSI). destruct HG as (H1 & _ & HC & HW & HG & _). fold ps in HC, HW, HG, HP, HE. destruct (HG eq_refl) as (h0 & c0 & E0 & HOK). injection E0 as <- <-.
  exists (mk_page h (PData c)), l. split; [exists h, c; now repeat (split; [easy|])|]. split; [exact HC|]. split; [exact HP|]. split; [exact HSI|].
  destruct (page_write_ok b (db_kind d) ps _ [] (i * ps) HC HW) as [s HS2]. destruct (page_write_pieces b _ ps _ _ _ _ (consistent_inside _ _ _ _ HC) HS2) as (l' & HP' & _ & HWI). pose proof (pieces_fun _ _ _ _ _ _ HP HP') as ->. now replace ((i + 1) * ps) with (i * ps + ps) by lia.
Qed.
Lemma select {X} (P Q : X -> Prop) : forall l, Forall (fun x => P x \/ Q x) l -> exists F, incl F l /\ Forall P F /\ Forall (fun x => In x F \/ Q x) l.
Proof.
  induction l as [|x l IH]; intro H; [exists []; split; [easy|split; constructor]|]. inversion H as [|? ? H1 H2]; subst. destruct (IH H2) as (F & F1 & F2 & F3). destruct H1 as [H1|H1].
  - exists (x :: F). split; [intros y [<-|HY]; [now left|right; now apply F1]|]. split; [now constructor|]. constructor; [left; now left|]. eapply Forall_impl; [|exact F3]. cbv beta. cbn [In]. tauto.
  - exists F. split; [intros y HY; right; now apply F1|]. split; [easy|]. constructor; [now right|easy].
Qed.

(** Programs as in C80, which assign, insert, delete and save in any order.  A byte of the heap of a page is the same afterwards, unless it lies in the space of a row to which something was assigned:
    every row of the page either keeps its values in all assignments, or reaches over [n] bytes that do not contain the byte. *)
Theorem c107_bytes : forall b k io d G A ls io' i h c u,
  bytes_ok io -> len io < 2 ^ 64 - 1 -> db_open io k = DOk d -> 28 + 16 * len (dh_tables (db_header d)) <= dh_page_size (db_header d) ->
  (forall i s, A i = Some s -> exists p, good_page b d (G i) i p /\ like s p) -> tasks_ok b k G (db_header d, A) (concat ls) -> jobs b k io ls io' ->
  good_page b d GGrow i (mk_page h (PData c)) -> u < ph_used h ->
  (forall o r, In (o, r) (dc_rows c) -> tasks_spare (db_header d, A) i r (concat ls) \/ exists n, row_fits b r n /\ (u < o \/ o + n <= u)) ->
  let x := i * dh_page_size (db_header d) + 40 + u in x < len io -> getN io' x = getN io x.
Proof.
  intros b k io d G A ls io' i h c u HB HL HO HP HA HT HJ HG HU HR x X3. pose proof (open_none io k d HO) as [EIO _]. pose proof (open_kind io k d HO) as HK. pose proof HG as (H1 & H2 & _).
  assert (stores b d G A) as HS by (now apply (open_stores b io k)). rewrite <- EIO in HB, HL. destruct (good_filed b d i h c HB HL HG) as (_ & F2 & F3 & _).
  destruct (select (fun y => tasks_spare (db_header d, A) i (snd y) (concat ls)) (aside b u) (dc_rows c)) as (F & S1 & S2 & S3).
  { apply Forall_forall. intros [o r] HI. exact (HR o r HI). }
  rewrite Forall_forall in S2. pose proof (good_kept b d i h c u F HB HL HG HU S3) as HKP. rewrite HK, EIO in HKP. rewrite EIO in F2.
  apply (jobs_still b io _ i u F H1 (fun y HY => F2 y (S1 y HY)) ltac:(lia) k io ls io' HJ d G (db_header d, A) HO eq_refl H2 HS eq_refl HT S2 HKP); easy.
Qed.
Print Assumptions c107_bytes.

Lemma tidy_others b : forall rows lo hi o r, tidy b lo rows hi -> In (o, r) rows -> exists n, row_fits b r n /\ o + n <= hi /\ lo <= o /\
  forall o' r', In (o', r') rows -> (o', r') = (o, r) \/ exists m, row_fits b r' m /\ (o + n <= o' \/ o' + m <= o).
Proof.
  induction rows as [|[o0 r0] rows IH]; intros lo hi o r HT HI; [easy|]. cbn [tidy] in HT. destruct HT as (T1 & n0 & T2 & T3). destruct HI as [HI|HI].
  - injection HI as <- <-. exists n0. split; [easy|]. pose proof (tidy_le _ _ _ _ T3). split; [easy|]. split; [easy|]. intros o' r' [E|HI]; [left; now rewrite E|]. right.
    destruct (IH _ _ o' r' T3 HI) as (m & M1 & M2 & M3 & _). exists m. split; [easy|]. now left.
  - destruct (IH _ _ o r T3 HI) as (n & N1 & N2 & N3 & N4). exists n. split; [easy|]. split; [easy|]. split; [lia|]. intros o' r' [E|HI']; [|now apply N4]. injection E as <- <-. right. exists n0. split; [easy|]. now right.
Qed.
(** So a row whose values are never assigned to is read at the same place with the same value, whatever happens to its neighbours and whether it is deleted or not. *)
Theorem c107_rows : forall b k io d G A ls io' i h c o r,
  bytes_ok io -> len io < 2 ^ 64 - 1 -> db_open io k = DOk d -> 28 + 16 * len (dh_tables (db_header d)) <= dh_page_size (db_header d) ->
  (forall i s, A i = Some s -> exists p, good_page b d (G i) i p /\ like s p) -> tasks_ok b k G (db_header d, A) (concat ls) -> jobs b k io ls io' ->
  good_page b d GGrow i (mk_page h (PData c)) -> In (o, r) (dc_rows c) -> tasks_spare (db_header d, A) i r (concat ls) ->
  exists z, rd_row (rd_dstr b) (ph_type h) io' (i * dh_page_size (db_header d) + 40 + o) = Ok (r, z).
Proof.
  intros b k io d G A ls io' i h c o r HB HL HO HP HA HT HJ HG HI HSP. pose proof (open_none io k d HO) as [EIO _]. set (ps := dh_page_size (db_header d)) in *.
  pose proof HG as (_ & _ & _ & _ & HGR & _). destruct (HGR eq_refl) as (h0 & c0 & E0 & HOK). injection E0 as <- <-. pose proof HOK as ((_ & _ & _ & _ & _ & _ & _ & _ & _ & _ & P11) & _ & _ & _ & A4 & _).
  destruct (tidy_others b _ _ _ o r A4 HI) as (n & N1 & N2 & _ & N4).
  assert (forall x, i * ps + 40 + o <= x -> x < i * ps + 40 + o + n -> x < len io -> getN io' x = getN io x) as HX.
  { intros x X1 X2 X3. replace x with (i * ps + 40 + (x - (i * ps + 40))) by lia. apply (c107_bytes b k io d G A ls io' i h c); try easy; [lia| |fold ps; replace (i * ps + 40 + (x - (i * ps + 40))) with x by lia; exact X3].
    intros o' r' HI'. destruct (N4 o' r' HI') as [E|(m & M1 & M2)]; [injection E as -> ->; now left|]. right. exists m. split; [easy|]. lia. }
  rewrite <- EIO in HB, HL, HX. destruct (good_filed b d i h c HB HL HG) as (_ & F2 & _). fold ps in F2. destruct (F2 (o, r) HI) as (l & z & E & HSI). cbn [fst snd] in E.
  rewrite Forall_forall in P11. destruct (P11 _ HI) as [R1 R2]. cbn [snd] in R1, R2. destruct (N1 _ _ _ _ E) as [_ HWI].
  assert (segs_in io' l) as HS.
  { apply (segs_in_frame (db_io d) io' _ _ l HSI HWI); [|exact HX]. now apply (row_segs_nonempty b dstr_good r (i * ps + 40 + o) l r z). }
  now apply (row_wr b (rd_dstr b) dstr_good r io' _ l r z (ph_type h) (dstr_good_wr b io') R1 R2 E).
Qed.
Print Assumptions c107_rows.

(** A program opens the file, changes row number [m] of page [i] only, and saves: a byte of the heap of the page is the same unless it lies in the space of that row.
    (No other row of the page may have just the same values.) *)
Theorem c107_one : forall b k io d G A io' i h c s m o r f n u P,
  bytes_ok io -> len io < 2 ^ 64 - 1 -> db_open io k = DOk d -> 28 + 16 * len (dh_tables (db_header d)) <= dh_page_size (db_header d) ->
  (forall i s, A i = Some s -> exists p, good_page b d (G i) i p /\ like s p) ->
  good_page b d GGrow i (mk_page h (PData c)) -> A i = Some s -> G i <> GAny -> getN (dc_rows c) m = Some (o, r) -> modest b f r ->
  (forall m' o' r', getN (dc_rows c) m' = Some (o', r') -> m' <> m -> ~ same_values r' r) -> row_fits b r n ->
  jobs b k io [[TActs P [AAssign i (only m f)]]] io' ->
  u < ph_used h -> u < o \/ o + n <= u ->
  let x := i * dh_page_size (db_header d) + 40 + u in x < len io -> getN io' x = getN io x.
Proof.
  intros b k io d G A io' i h c s m o r f n u P HB HL HO HP HA HG EA HGR EM HM HD HF HJ HU HX x X3.
  destruct (HA i s EA) as (p & HG' & (_ & _ & _ & _ & LR)). assert (p = mk_page h (PData c)) as ->.
  { destruct HG as (_ & _ & _ & _ & _ & q & R1). destruct HG' as (_ & _ & _ & _ & _ & q' & R2). congruence. }
  cbn [rows_of_page pg_content] in LR. pose proof HG as (_ & _ & _ & _ & HGO & _). destruct (HGO eq_refl) as (h0 & c0 & E0 & HOK). injection E0 as <- <-. destruct HOK as ((_ & _ & _ & _ & _ & _ & _ & _ & _ & _ & P11) & _). pose proof HG as (_ & _ & _ & HW & _). unfold page_writes in HW. cbn [pg_content] in HW.
  assert (forall (c0 : N) (rows : list (N * row)) l, Forall2 same_values l (map snd rows) -> Forall (fun x => row_ok dstr_good (snd x) /\ row_ptype_ok (ph_type h) (snd x)) rows -> Forall (fun x => row_writes b (snd x)) rows ->
    (forall m' y, getN rows m' = Some y -> c0 + m' = m -> modest b f (snd y)) -> modest_rows b (only m f) c0 l) as HMR.
  { clear. intros c0 rows. revert c0. induction rows as [|[o r] rows IH]; intros c0 l HL HR HW HX; inversion HL as [|x ? l' ? L1 L2]; subst; [exact I|]. inversion HR as [|? ? [R1 _] R2]; inversion HW as [|? ? W1 W2]; subst. cbn [modest_rows snd] in *. split.
    - apply (modest_same b (only m f c0) r); [now apply same_sym|]. unfold only. destruct (c0 =? m) eqn:E; [|now apply c78_same]. apply (HX 0 (o, r) eq_refl). lia.
    - apply (IH (c0 + 1)); try easy. intros m' y HY E. apply (HX (m' + 1) y); [|lia]. rewrite getN_cons. replace (m' + 1 =? 0) with false by lia. now replace (m' + 1 - 1) with m' by lia. }
  apply (c107_bytes b k io d G A [[TActs P [AAssign i (only m f)]]] io' i h c u); try easy.
  - cbn [concat app tasks_ok task_ok acts_ok act_ok fst snd]. split; [|exact I]. split; [|exact I]. exists s. split; [exact EA|]. split; [exact HGR|]. apply (HMR 0 (dc_rows c)); try easy. intros m' y HY E. replace m' with m in HY by lia. rewrite EM in HY. now injection HY as <-.
  - intros o' r' HI. apply in_getN in HI as (m' & HI). destruct (N.eq_dec m' m) as [->|HNE].
    + right. rewrite EM in HI. injection HI as <- <-. now exists n.
    + left. cbn [concat app tasks_spare task_spares acts_spare act_spares snd]. split; [|exact I]. split; [|exact I]. intros _ s' EA'. rewrite EA in EA'. injection EA' as <-. apply (spares_same _ _ (map snd (dc_rows c))); [apply Forall2_flip in LR; eapply Forall2_imp; [|exact LR]; cbv beta; intros; now apply same_sym|].
      specialize (HD m' o' r' HI HNE). assert (forall j, j = m -> forall y, getN (dc_rows c) j = Some y -> snd y = r) as HY by (intros j -> y HY; rewrite EM in HY; now injection HY as <-). clear -HD HY.
      assert (forall (c0 : N) (rows : list (N * row)), (forall j, c0 + j = m -> forall y, getN rows j = Some y -> snd y = r) -> spares (only m f) c0 (map snd rows) r') as HSP; [|apply (HSP 0); intros j E; apply HY; lia].
      clear HY. intros c0 rows. revert c0. induction rows as [|y rows IH]; intros c0 HY; cbn [map spares]; [exact I|]. split.
      * intro HS. unfold only. destruct (c0 =? m) eqn:E; [|now destruct r']. exfalso. apply HD. rewrite <- (HY 0 ltac:(lia) y eq_refl). now apply same_sym.
      * apply IH. intros j E z HZ. apply (HY (j + 1) ltac:(lia)). rewrite getN_cons. replace (j + 1 =? 0) with false by lia. now replace (j + 1 - 1) with j by lia.
Qed.
Print Assumptions c107_one.

(** ** Example: page 1 has the keys 1 and 2.  The program renames key 1 in place, saves, inserts key 9 and deletes key 2; nothing is ever assigned to key 2. *)
Definition c107_jobs : list (list task) := [[TActs c78_tables [AAssign 1 c78_rename; ASave; AInsert 1 [(11, Some c18_new)]]]; [TActs c78_tables [ADelete 1 1]]].
Definition c107_spared : row := RRow KKey [VInt 2; VInt 2; VStr (DSShort [66])] None.
Example c107_example_hyp : tasks_ok Debug DbPlain (fun _ => GGrow) (db_header (c80_open 1), c80_shelves 1) (concat c107_jobs) /\ tasks_spare (db_header (c80_open 1), c80_shelves 1) 1 c107_spared (concat c107_jobs).
Proof.
  destruct (c80_example_hyp 1 (or_introl eq_refl)) as (_ & _ & _ & _ & H5). split.
  - cbn [concat c107_jobs app tasks_ok]. split; [|split; [|exact I]].
    + cbn [task_ok acts_ok fst snd]. split; [|split; [exact I|split; [|exact I]]].
      * eexists. split; [vm_compute; reflexivity|]. split; [discriminate|]. cbn [sh_rows modest_rows]. split; [|split; [|exact I]].
        -- destruct (c78_key 1 1 65) with (t := [65; 109]) as [K1 K2]; try reflexivity; [now right|]. change (c78_rename 0) with (fields_only (set_nth 2 (VStr (DSShort [67])))).
           apply (c78_text _ _ _ _ 2 (DSShort [65; 109]) (DSShort [67]) [7; 65; 109] [5; 67]); try easy. split; [|split; [intros v [=]|exact I]]. split; [cbn; lia|]. repeat constructor; lia.
        -- apply c78_same; apply (c78_key 2 2 66); try reflexivity; now left.
      * eexists. split; [reflexivity|]. right. split; [reflexivity|exact H5].
    + cbn [task_ok acts_ok fst snd]. split; [|exact I]. split; [eexists; reflexivity|discriminate].
  - cbn [concat c107_jobs app tasks_spare task_spares acts_spare act_spares]. split; [|split; [|exact I]].
    + split; [|split; [exact I|split; [exact I|exact I]]]. intros _ s [= <-]. cbn [sh_rows map snd c18_rows spares]. split; [intros (_ & E & _); discriminate E|]. split; [intros _; reflexivity|exact I].
    + split; exact I.
Qed.
Example c107_example : exists io' d', jobs Debug DbPlain (c80_io 1) c107_jobs io' /\ db_open io' DbPlain = DOk d' /\
  (exists rows, snd (iter_rows Debug KKey d') = Some (DOk rows) /\ Forall2 same_values [RRow KKey [VInt 1; VInt 1; VStr (DSShort [67])] None; c18_new] rows) /\
  exists z, rd_row (rd_dstr Debug) (PT KKey) io' (1 * 198 + 40 + 24) = Ok (c107_spared, z).
Proof.
  destruct (c80_example_hyp 1 (or_introl eq_refl)) as (H1 & H2 & H3 & H4 & H5). assert (len (c80_io 1) = 594) as HLN by (vm_compute; reflexivity). destruct c107_example_hyp as [HT HSP].
  destruct (c80_run Debug DbPlain (c80_io 1) (c80_open 1) (fun _ => GGrow) (c80_shelves 1) c107_jobs) as [io' HJ]; [exact H1|rewrite HLN; reflexivity|exact H2|vm_compute; discriminate|vm_compute; discriminate|exact H3|exact HT|].
  destruct (c80_jobs Debug DbPlain (c80_io 1) (c80_open 1) (fun _ => GGrow) (c80_shelves 1) c107_jobs io') as (d' & D1 & D2 & D3 & D4); [exact H1|rewrite HLN; reflexivity|exact H2|vm_compute; discriminate|exact H3|exact HT|exact HJ|].
  exists io', d'. split; [exact HJ|]. split; [exact D1|]. split.
  - apply (D4 KKey 1 (mk_table (PT KKey) 9 1 1) [1]); [reflexivity|cbn [tb_last tb_first]; eapply path_last; reflexivity|reflexivity].
  - destruct (H3 1 _ eq_refl) as (p & HG & _). pose proof HG as (_ & _ & _ & _ & _ & z & HR).
    assert (rd_page Debug (rd_dstr_strict Debug) (dh_page_size (db_header (c80_open 1))) (db_kind (c80_open 1)) (db_io (c80_open 1)) (1 * dh_page_size (db_header (c80_open 1))) = Ok (c75_page, 396)) as HR' by (vm_compute; reflexivity).
    rewrite HR' in HR. injection HR as <- _. apply (c107_rows Debug DbPlain (c80_io 1) (c80_open 1) (fun _ => GGrow) (c80_shelves 1) c107_jobs io' 1 c18_header c18_content 24);
    [exact H1|rewrite HLN; reflexivity|exact H2|vm_compute; discriminate|exact H3|exact HT|exact HJ|exact HG|right; now left|exact HSP].
Qed.
