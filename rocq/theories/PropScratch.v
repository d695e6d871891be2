(** * Property C124: databases made from scratch *)
From Coq Require Import NArith ZArith List Bool Lia.
From Coq Require Import ZifyBool ZifyNat ZifyN.
From Verif Require Import Base BaseFacts Segs Str StrFacts StrGood Schema SchemaFacts Oa OaFacts OaSpec Rows RowFacts RowSpec Page BitFacts PageFacts PageRw PageSpec Alloc AllocFacts AllocSpec
  Db DbFacts DbFlush DbFresh Reread Progress Insert Session Revise Relink PropAlloc PropSession Cut CutLink Append Builds.
Import ListNotations.
Open Scope N_scope.

(** ** Programs *)
(** What should be on a page: its type, the number of the next page, and the rows, each with the size that is reserved for it (see Alloc.v). *)
Record plan : Type := mk_plan { pl_type : ptype; pl_next : N; pl_ops : list (N * option row) }.
(** A page without rows, made from its public fields: [PageHeader] and [DataPageHeader], /repo/src/pdb/mod.rs:502-545 and 623-645, with [PageFlags::new_data_page], bitfields.rs:116. *)
Definition blank (ps i : N) (p : plan) : page :=
  mk_page (mk_phdr i (pl_type p) (pl_next p) 0 0 (mk_counts 0 0) 0x24 (ps - 40) 0) (PData (mk_dcontent [VInt 1; VInt 0; VInt 0; VInt 0] [] [])).
(** The rows are put on such pages, numbered from [i] on. *)
Inductive filled (b : build) (ps : N) : N -> list plan -> list page -> Prop :=
| filled_nil i : filled b ps i [] []
| filled_cons i p ps' q l : run b (pl_ops p) (blank ps i p) = Ok q -> filled b ps (i + 1) ps' l -> filled b ps i (p :: ps') (q :: l).
(** The program: write the header to an empty file ([BinWrite] of [Header], mod.rs:205-235), write the pages behind it, open the file, count the pages, and save. *)
Definition makes (b : build) (db : dbtype) (h : dbhdr) (plans : list plan) (io : list N) : Prop :=
  exists l, filled b (dh_page_size h) 1 plans l /\ appended b db (dbhdr_enc h) l io.

(** ** Spec *)
Definition planned (p : plan) : list row := flat_map (fun op => match snd op with Some r => [r] | None => [] end) (pl_ops p).
(** The page has a type of the database, its rows are of this type and can be written, and there is room: every row takes its size, rounded up to a multiple of 4, and up to 6 bytes more. *)
Definition plan_ok (b : build) (db : dbtype) (ps : N) (p : plan) : Prop :=
  ptype_ok db (pl_type p) /\ pl_next p < 2 ^ 32 /\ Forall (op_fine b (pl_type p)) (pl_ops p) /\ fold_right N.add 0 (map (fun op => (fst op + 3) / 4 * 4 + 6) (pl_ops p)) <= ps - 40.
(** The plans from page [i] to page [last]; page numbers start with 1 and increase. *)
Inductive chain (plans : list plan) (last : N) : N -> list plan -> Prop :=
| chain_last p : 1 <= last -> getN plans (last - 1) = Some p -> chain plans last last [p]
| chain_step i p l : i <> last -> 1 <= i -> getN plans (i - 1) = Some p -> i < pl_next p -> chain plans last (pl_next p) l -> chain plans last i (p :: l).

(** ** Proof *)
Lemma blank_ok b db ps i p : 40 <= ps -> ps <= 4096 -> i < 2 ^ 32 -> plan_ok b db ps p ->
  exists h c, blank ps i p = mk_page h (PData c) /\ alloc_ok b dstr_good db ps h c /\ ph_type h = pl_type p /\ page_writes b ps (blank ps i p) /\ like (mk_shelf (pl_type p) (pl_next p) (ps - 40) 0 []) (blank ps i p).
Proof.
  intros P1 P2 Hi (K1 & K2 & _). eexists _, _. split; [reflexivity|]. split; [|split; [reflexivity|split; [constructor|repeat split; constructor]]].
  unfold alloc_ok. split; [|split; [lia|split; [|split; [|split]]]].
  - unfold dpage_ok. split; [easy|]. split; [lia|]. split.
    { unfold phdr_ok. cbn [ph_index ph_type ph_next ph_unknown1 ph_unknown2 ph_counts ph_flags ph_free ph_used]. unfold is_u32, is_u16, is_u8. split; [lia|]. split; [exact K1|]. split; [lia|]. split; [easy|]. split; [easy|]. split; [easy|]. split; [easy|]. split; [lia|easy]. }
    split; [reflexivity|]. split; [repeat constructor|]. split; [reflexivity|]. split; [constructor|]. split; [constructor|]. split; [reflexivity|]. split; [reflexivity|]. constructor.
  - cbn [ph_used ph_free]. unfold footer_space. cbn. lia.
  - intros s H. exfalso. unfold slot_flag in H. now rewrite (proj2 (getN_None _ _)) in H by (cbn; lia).
  - cbn [tidy dc_rows ph_used]. lia.
  - easy.
Qed.
Definition shelf_of (ps : N) (p : plan) : shelf := places (pl_ops p) (mk_shelf (pl_type p) (pl_next p) (ps - 40) 0 []).
Lemma filled_ok b db ps : 40 <= ps -> ps <= 4096 -> forall i plans l, filled b ps i plans l -> i + len plans < 2 ^ 32 -> Forall (plan_ok b db ps) plans ->
  Forall (fun q => can_grow b db ps q /\ page_writes b ps q) l /\ Forall2 like (map (shelf_of ps) plans) l.
Proof.
  intros P1 P2 i plans l H. induction H as [i|i p plans q l HR HF IH]; intros HL HO; [now split; constructor|]. inversion HO as [|? ? O1 O2]; subst. rewrite len_cons in HL. destruct IH as [I1 I2]; [lia|exact O2|].
  destruct (blank_ok b db ps i p P1 P2) as (h & c & E & HA & HT & HW & HK); [lia|exact O1|]. rewrite E in *. destruct O1 as (_ & _ & HOP & _). rewrite <- HT in HOP.
  destruct (places_page b db ps (pl_ops p) h c q _ HA HOP HR HK) as (h' & c' & -> & A' & W' & K'). split; constructor; try easy. split; [|now apply W']. now exists h', c'.
Qed.
Lemma filled_runs b db ps : 40 <= ps -> ps <= 4096 -> forall plans i, i + len plans < 2 ^ 32 -> Forall (plan_ok b db ps) plans -> exists l, filled b ps i plans l.
Proof.
  intros P1 P2. induction plans as [|p plans IH]; intros i HL HO; [exists []; constructor|]. inversion HO as [|? ? O1 O2]; subst. rewrite len_cons in HL. destruct (IH (i + 1)) as [l HF]; [lia|exact O2|].
  destruct (blank_ok b db ps i p P1 P2) as (h & c & E & HA & HT & _); [lia|exact O1|]. destruct (run_no_panic b dstr_good db ps (pl_ops p) h c HA P2) as [q HR].
  { destruct O1 as (_ & _ & HOP & _). rewrite HT. eapply Forall_impl; [|exact HOP]. now intros op []. }
  exists (q :: l). constructor; [now rewrite E|exact HF].
Qed.
Lemma shelf_of_rows b db ps p : plan_ok b db ps p -> sh_rows (shelf_of ps p) = planned p /\ sh_type (shelf_of ps p) = pl_type p /\ sh_next (shelf_of ps p) = pl_next p.
Proof. intros (_ & _ & _ & H). unfold shelf_of. split; [now rewrite places_all|]. destruct (places_type (pl_ops p) (mk_shelf (pl_type p) (pl_next p) (ps - 40) 0 [])) as [-> ->]. easy. Qed.
Lemma chain_path b db ps plans last i l : Forall (plan_ok b db ps) plans -> chain plans last i l ->
  let A := adjoin (fun _ => None) 1 (map (shelf_of ps) plans) in exists is, path A last i is /\ flat_map (shelf_rows A) is = flat_map planned l.
Proof.
  intros HO H A. assert (forall j p, 1 <= j -> getN plans (j - 1) = Some p -> A j = Some (shelf_of ps p) /\ shelf_rows A j = planned p /\ sh_next (shelf_of ps p) = pl_next p) as HA.
  { intros j p Hj E. assert (plan_ok b db ps p) as HP by (rewrite Forall_forall in HO; apply HO, in_getN; now exists (j - 1)). destruct (shelf_of_rows b db ps p HP) as (S1 & _ & S3).
    assert (A j = Some (shelf_of ps p)) as EA by (unfold A, adjoin; replace (j <? 1) with false by lia; unfold getN in *; now apply map_nth_error). split; [exact EA|]. unfold shelf_rows. now rewrite EA. }
  induction H as [p H1 E|j p l NE H1 E HN HC IH]; destruct (HA _ p H1 E) as (A1 & A2 & A3).
  - exists [last]. split; [now apply (path_last A last (shelf_of ps p))|]. cbn [flat_map]. now rewrite A2.
  - destruct IH as (is & I1 & I2). exists (j :: is). split; [|cbn [flat_map]; now rewrite A2, I2]. apply (path_step A last j (shelf_of ps p)); try easy; rewrite A3; easy.
Qed.
Lemma planned_variant b db ps k p : plan_ok b db ps p -> pl_type p = PT k -> forallb (is_variant k) (planned p) = true.
Proof.
  intros (_ & _ & HF & _) ET. rewrite ET in HF. unfold planned. induction HF as [|[n r] ops [[_ HO] _] _ IH]; [reflexivity|]. cbn [flat_map snd] in *. destruct r as [r|]; [|exact IH]. cbn [app forallb]. rewrite IH, andb_true_r.
  destruct HO as (_ & _ & HO & _). destruct r as [k' vs oc|]; [|destruct HO]. cbn [row_ptype_ok] in HO. subst k'. cbn [is_variant]. now destruct (rkind_eq_dec k k).
Qed.
Lemma chain_plans plans last i l : chain plans last i l -> forall p, In p l -> In p plans.
Proof. intro H. induction H as [p H1 E|j p l NE H1 E HN HC IH]; intros q [<-|Hq]; try easy; [| |now apply IH]; apply in_getN; eauto. Qed.
Lemma scratch_open b db h : dbhdr_ok db h -> dh_next h = 1 -> 28 + 16 * len (dh_tables h) <= dh_page_size h ->
  exists d, db_open (dbhdr_enc h) db = DOk d /\ db_header d = h /\ forall G, stores b d G (fun _ => None).
Proof.
  intros HH HN HP. assert (has (dbhdr_enc h) 0 (dbhdr_enc h)) as HS. { apply has_get. split; [lia|]. intros x Hx. now rewrite N.add_0_l. }
  assert (bytes_ok (dbhdr_enc h)) as HB. { unfold dbhdr_enc, bytes_ok. repeat (apply Forall_app; split; [apply le_enc_ok|]). clear. induction (dh_tables h) as [|t ts IH]; [constructor|]. cbn [flat_map]. apply Forall_app. split; [|exact IH]. unfold table_enc. repeat (apply Forall_app; split; [apply le_enc_ok|]). apply le_enc_ok. }
  pose proof (dbhdr_wr db h _ 0 HH HS) as HR. eexists. split; [unfold db_open; rewrite HR; reflexivity|]. split; [reflexivity|]. intro G. apply (open_stores b (dbhdr_enc h) db); cbn [db_header]; try easy.
  - rewrite len_dbhdr_enc. destruct HH as (X & _). unfold is_u32 in X. lia.
  - unfold db_open. now rewrite HR.
Qed.

Lemma made_stores b db h plans io : dbhdr_ok db h -> dh_next h = 1 -> let ps := dh_page_size h in 28 + 16 * len (dh_tables h) <= ps -> 40 <= ps -> ps <= 4096 -> 1 + len plans < 2 ^ 32 ->
  Forall (plan_ok b db ps) plans -> makes b db h plans io ->
  exists d, db_open io db = DOk d /\ db_header d = with_next (1 + len plans) h /\ stores b d (fun _ => GGrow) (adjoin (fun _ => None) 1 (map (shelf_of ps) plans)).
Proof.
  intros HH HN ps HP P1 P2 HL HO (l & HF & HA). destruct (scratch_open b db h HH HN HP) as (d & E & ED & HST). destruct (filled_ok b db ps P1 P2 1 plans l HF HL HO) as [F1 F2].
  assert (len l = len plans) as LL by (clear - HF; induction HF as [|i p plans q l _ _ IH]; [reflexivity|]; now rewrite !len_cons, IH).
  destruct (appended_stores b db (dbhdr_enc h) d (fun _ => GGrow) (fun _ => None) l (map (shelf_of ps) plans) io) as (d3 & O1 & O2 & O3); rewrite ?ED, ?HN; try easy; fold ps.
  - now rewrite LL.
  - eapply Forall_impl; [|exact F1]. intros q [Q1 Q2]. split; [now apply grow_consistent|exact Q2].
  - intros i q Eq. cbn [graded]. rewrite Forall_forall in F1. apply F1, in_getN. now exists i.
  - rewrite ED, HN in O2, O3. rewrite LL in O2. now exists d3.
Qed.
Lemma chain_variant b db ps k plans last i q : Forall (plan_ok b db ps) plans -> chain plans last i q -> Forall (fun p => pl_type p = PT k) q -> forallb (is_variant k) (flat_map planned q) = true.
Proof.
  intros HO HC HK. pose proof (chain_plans _ _ _ _ HC) as HI. clear - HO HK HI. induction HK as [|p q HK _ IH]; [reflexivity|]. cbn [flat_map]. rewrite forallb_app, IH by (intros x Hx; apply HI; now right). rewrite andb_true_r.
  apply (planned_variant b db ps); [|exact HK]. rewrite Forall_forall in HO. apply HO, HI. now left.
Qed.

(** ** Property *)
(** The file that the program makes can be opened, has the header of the program with the number of pages, and every table shows the rows of the pages of its chain: all of them, nothing else, and in this order. *)
Theorem c124_made : forall b db h plans io, dbhdr_ok db h -> dh_next h = 1 -> let ps := dh_page_size h in 28 + 16 * len (dh_tables h) <= ps -> 40 <= ps -> ps <= 4096 -> 1 + len plans < 2 ^ 32 ->
  Forall (plan_ok b db ps) plans -> makes b db h plans io ->
  (exists d, db_open io db = DOk d /\ db_header d = mk_dbhdr ps (dh_num h) (1 + len plans) (dh_unknown h) (dh_seq h) (dh_tables h)) /\
  forall k i t q, find_table (PT k) h = Some (i, t) -> chain plans (tb_last t) (tb_first t) q -> Forall (fun p => pl_type p = PT k) q -> shown b db k io (flat_map planned q).
Proof.
  intros b db h plans io HH HN ps HP P1 P2 HL HO HM. destruct (made_stores b db h plans io HH HN HP P1 P2 HL HO HM) as (d & O1 & O2 & O3). split; [exists d; split; [exact O1|rewrite O2; reflexivity]|].
  intros k i t q HT HC HK. destruct (chain_path b db ps plans _ _ q HO HC) as (is & I1 & I2). exists d.
  destruct (stores_rows b d (fun _ => GGrow) _ k i t is O3) as (rows & R1 & R2); [rewrite O2; exact HT|exact I1| |exists rows; fold ps in R2; rewrite I2 in R2; now split].
  fold ps. rewrite I2. now apply (chain_variant b db ps k plans (tb_last t) (tb_first t)).
Qed.
Print Assumptions c124_made.
(** The program always succeeds. *)
Theorem c124_makes : forall b db h plans, dbhdr_ok db h -> dh_next h = 1 -> let ps := dh_page_size h in 28 + 16 * len (dh_tables h) <= ps -> 40 <= ps -> ps <= 4096 -> 1 + len plans < 2 ^ 32 ->
  Forall (plan_ok b db ps) plans -> exists io, makes b db h plans io.
Proof.
  intros b db h plans HH HN ps HP P1 P2 HL HO. destruct (filled_runs b db ps P1 P2 plans 1 HL HO) as [l HF]. destruct (filled_ok b db ps P1 P2 1 plans l HF HL HO) as [F1 _]. destruct (scratch_open b db h HH HN HP) as (d & E & ED & HST).
  destruct (appended_runs b db (dbhdr_enc h) d (fun _ => GGrow) (fun _ => None) l) as [io HA]; rewrite ?ED, ?HN; try easy; [|exists io, l; now split].
  eapply Forall_impl; [|exact F1]. intros q [Q1 Q2]. split; [now apply grow_consistent|exact Q2].
Qed.
Print Assumptions c124_makes.
(** So whatever rows can be written and fit on a page: there is a database that shows them. *)
Theorem c124_every : forall b db k ops ps, 44 <= ps -> ps <= 4096 -> In k (db_kinds db) -> Forall (op_fine b (PT k)) ops -> fold_right N.add 0 (map (fun op => (fst op + 3) / 4 * 4 + 6) ops) <= ps - 40 ->
  exists io, shown b db k io (flat_map (fun op => match snd op with Some r => [r] | None => [] end) ops).
Proof.
  intros b db k ops ps P1 P2 HK HO HR. set (h := mk_dbhdr ps 1 1 0 0 [mk_table (PT k) 2 1 1]). set (p := mk_plan (PT k) 2 ops).
  assert (dbhdr_ok db h) as HH. { unfold dbhdr_ok, is_u32. cbn. split; [lia|]. do 5 (split; [easy|]). constructor; [|constructor]. repeat split; easy. }
  assert (28 + 16 * len (dh_tables h) <= dh_page_size h) as HP by (unfold h; cbn; lia). assert (Forall (plan_ok b db (dh_page_size h)) [p]) as HF by (constructor; [|constructor]; now repeat split).
  destruct (c124_makes b db h [p]) as [io HM]; try easy; [cbn; lia|]. exists io. destruct (c124_made b db h [p] io) as [_ HS]; try easy; [cbn; lia|].
  specialize (HS k 0 (mk_table (PT k) 2 1 1) [p]). cbn [flat_map] in HS. rewrite app_nil_r in HS. apply HS.
  - unfold find_table, h. cbn [dh_tables find_from]. cbn [tb_type]. destruct (ptype_eqb (PT k) (PT k)) eqn:E; [reflexivity|]. exfalso. revert E. cbn. destruct (rkind_eq_dec k k); easy.
  - apply chain_last; [cbn; lia|reflexivity].
  - constructor; [reflexivity|constructor].
Qed.
Print Assumptions c124_every.

(** The file is determined by the program, and the same in both builds. *)
Theorem c124_same : forall b b' db h plans io io', makes b db h plans io -> makes b' db h plans io' -> io' = io.
Proof.
  assert (forall db h plans io, makes Debug db h plans io -> makes Release db h plans io) as HB.
  { intros db h plans io (l & HF & d & io1 & z & d1 & d2 & E0 & EW & E1 & EF & EI). exists l. split.
    - clear - HF. induction HF as [i|i p plans q l HR HF IH]; constructor; [|exact IH]. now apply ag_run_ok.
    - exists d, io1, z, d1, d2. split; [exact E0|]. cbv zeta. split; [|split; [exact E1|split; [|exact EI]]].
      + clear - EW. revert EW. generalize (dbhdr_enc h, dh_next (db_header d) * dh_page_size (db_header d)). induction l as [|p l IH]; intros s EW; [exact EW|]. cbn [map wr_all] in *. unfold wr_seq in *.
        destruct (page_write Debug (dh_page_size (db_header d)) p s) as [s1| |] eqn:E; try discriminate. cbn [res_bind] in EW. destruct (ag_page (dh_page_size (db_header d)) p s) as [X|X]; [congruence|]. rewrite <- X, E. cbn [res_bind]. now apply IH.
      + now apply ag_flush_ok. }
  assert (forall b db h plans io io', makes b db h plans io -> makes b db h plans io' -> io' = io) as HU.
  { intros b db h plans io io' (l & HF & d & io1 & z & d1 & d2 & E0 & EW & E1 & EF & EI) (l' & HF' & d' & io1' & z' & d1' & d2' & E0' & EW' & E1' & EF' & EI').
    assert (l' = l) as ->. { clear - HF HF'. revert l' HF'. induction HF as [i|i p plans q l HR HF IH]; intros l' HF'; inversion HF' as [|? ? ? q' l2 HR' HF2]; subst; [reflexivity|]. f_equal; [congruence|now apply IH]. }
    cbv zeta in *. assert (d' = d) as -> by congruence. assert (io1' = io1) as -> by congruence. assert (d1' = d1) as -> by congruence. congruence. }
  intros b b' db h plans io io' H H'. destruct b, b'; [now apply (HU Debug db h plans)|apply HB in H; now apply (HU Release db h plans)|apply HB in H'; now apply (HU Release db h plans)|now apply (HU Release db h plans)].
Qed.
Print Assumptions c124_same.

(** ** Example: three pages, two of them in the table of keys *)
Definition c124_hdr : dbhdr := mk_dbhdr 198 2 1 5 6 [mk_table (PT KKey) 9 1 3; mk_table (PT KGenre) 8 2 2].
Definition c124_plans : list plan := [mk_plan (PT KKey) 3 [(11, Some c18_new); (12, Some c18_new)]; mk_plan (PT KGenre) 8 []; mk_plan (PT KKey) 9 [(8, None); (20, Some c18_new)]].
Definition c124_pages : list page := Eval vm_compute in
  (fix go i l := match l with [] => [] | p :: r => match run Debug (pl_ops p) (blank 198 i p) with Ok q => q :: go (i + 1) r | _ => [] end end) 1 c124_plans.
Definition c124_io : list N := Eval vm_compute in
  match wr_all (map (page_write Debug 198) c124_pages) (dbhdr_enc c124_hdr, 198) with
  | Ok (io1, _) => match db_open io1 DbPlain with DOk d => match flush Debug (with_header d (with_next 4 (db_header d))) with DOk d2 => db_io d2 | _ => [] end | _ => [] end
  | _ => [] end.
Example c124_example_hyp : dbhdr_ok DbPlain c124_hdr /\ Forall (plan_ok Debug DbPlain 198) c124_plans /\ makes Debug DbPlain c124_hdr c124_plans c124_io /\
  exists p q, getN c124_plans 0 = Some p /\ getN c124_plans 2 = Some q /\ chain c124_plans 3 1 [p; q].
Proof.
  assert (ptype_ok DbPlain (PT KKey)) as HK by (cbn; auto 20). assert (ptype_ok DbPlain (PT KGenre)) as HG by (cbn; auto 20). split; [|split; [|split]].
  - unfold dbhdr_ok. do 6 (split; [reflexivity|]). constructor; [split; [exact HK|repeat split]|]. constructor; [split; [exact HG|repeat split]|constructor].
  - assert (forall n, 11 <= n -> insertable Debug dstr_good (PT KKey) n c18_new) as H.
    { intros n Hn. split; [lia|]. split; [|split; [reflexivity|]].
      - split; [|exact I]. repeat constructor; cbn; repeat split; repeat constructor; try easy.
      - apply (row_fits_mono _ _ 11); [|pose proof (up4_mod n); lia]. eapply (row_size_fits Debug (fun _ => True)); [repeat constructor|exact I|eexists _, _; split; reflexivity]. }
    assert (forall n, 11 <= n -> n <= 65528 -> op_fine Debug (PT KKey) (n, Some c18_new)) as HO by (intros n H1 H2; split; [split; [exact H2|now apply H]|eexists; vm_compute; reflexivity]).
    unfold c124_plans. constructor; [|constructor; [|constructor; [|constructor]]].
    + split; [exact HK|]. split; [reflexivity|]. split; [|vm_compute; discriminate]. constructor; [now apply HO|]. constructor; [now apply HO|constructor].
    + split; [exact HG|]. split; [reflexivity|]. split; [constructor|vm_compute; discriminate].
    + split; [exact HK|]. split; [reflexivity|]. split; [|vm_compute; discriminate]. constructor; [now split|]. constructor; [now apply HO|constructor].
  - exists c124_pages. split; [repeat (apply filled_cons; [vm_compute; reflexivity|]); apply filled_nil|]. eexists _, _, _, _, _. split; [vm_compute; reflexivity|]. split; [vm_compute; reflexivity|]. split; [vm_compute; reflexivity|]. split; [vm_compute; reflexivity|]. vm_compute. reflexivity.
  - eexists _, _. split; [reflexivity|]. split; [reflexivity|]. apply chain_step; [easy|easy|reflexivity|easy|]. apply chain_last; [easy|reflexivity].
Qed.
Example c124_example : shown Debug DbPlain KKey c124_io [c18_new; c18_new; c18_new] /\ exists d, db_open c124_io DbPlain = DOk d /\ snd (iter_rows Debug KKey d) = Some (DOk [c18_new; c18_new; c18_new]) /\ snd (iter_rows Debug KGenre d) = Some (DOk []).
Proof.
  split; [|eexists; split; [vm_compute; reflexivity|]; split; vm_compute; reflexivity]. destruct c124_example_hyp as (H1 & H2 & H3 & p & q & E1 & E2 & H4).
  destruct (c124_made Debug DbPlain c124_hdr c124_plans c124_io H1) as [_ HS]; [reflexivity|vm_compute; discriminate|vm_compute; discriminate|vm_compute; discriminate|reflexivity|exact H2|exact H3|].
  specialize (HS KKey 0 (mk_table (PT KKey) 9 1 3) [p; q] eq_refl H4). injection E1 as <-. injection E2 as <-. apply HS. repeat constructor.
Qed.
