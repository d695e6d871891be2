(** Assigning to rows leaves the bytes of the other rows alone (C107). *)
From Coq Require Import NArith ZArith List Bool Lia.
From Coq Require Import ZifyBool ZifyNat ZifyN.
From Verif Require Import Base BaseFacts Segs Str StrFacts StrGood Schema SchemaFacts Oa OaFacts OaSpec Rows RowFacts RowSpec Page BitFacts PageFacts PageRw PageSpec IndexSpec Alloc AllocFacts AllocSpec Db DbFacts DbFlush DbFresh Reread Progress Insert Session Delete Revise Relink Untouched Remains.
Import ListNotations.
Open Scope N_scope.

(** ** Spec *)
(** The program sees the fields and strings of this row and assigns the same ones. *)
Definition leaves (c : change) (r : row) : Prop :=
  match r with RRow k vs oc => c vs (strings oc) = mk_fill vs (strings oc) false | RUnknown => True end.
(** Of the rows, counted from [i], those with the values of [r] are left as they are. *)
Fixpoint spares (f : N -> change) (i : N) (rows : list row) (r : row) : Prop :=
  match rows with [] => True | r' :: rest => (same_values r' r -> leaves (f i) r) /\ spares f (i + 1) rest r end.
(** Whatever is assigned in page [j], rows with the values of [r] are left as they are. *)
Definition act_spares (P : rkind -> list N) (A : shelves) (j : N) (r : row) (a : act) : Prop :=
  match a with
  | AAssign j' f => j' = j -> forall s, A j = Some s -> spares f 0 (sh_rows s) r
  | AAssignAll k f => In j (P k) -> spares f 0 (flat_map (shelf_rows A) (P k)) r
  | _ => True
  end.
Fixpoint acts_spare (P : rkind -> list N) (A : shelves) (j : N) (r : row) (l : list act) : Prop :=
  match l with [] => True | a :: rest => act_spares P A j r a /\ acts_spare P (act_work P A a) j r rest end.
Definition task_spares (st : dbhdr * shelves) (j : N) (r : row) (a : task) : Prop :=
  match a with TActs P l => acts_spare P (snd st) j r l | _ => True end.
Fixpoint tasks_spare (st : dbhdr * shelves) (j : N) (r : row) (l : list task) : Prop :=
  match l with [] => True | a :: rest => task_spares st j r a /\ tasks_spare (task_work st a) j r rest end.

(** ** Rows *)
Lemma leaves_assign c r : leaves c r -> assign c r = r.
Proof. destruct r as [k vs [oc|]|]; cbn [leaves assign strings]; [| |easy]; intros ->; cbn [fl_vals fl_strs fl_calc]; [now destruct oc|easy]. Qed.
Lemma spares_app f r : forall l l' i, spares f i (l ++ l') r <-> spares f i l r /\ spares f (i + len l) l' r.
Proof.
  induction l as [|x l IH]; intros l' i; cbn [app spares]; [now rewrite len_nil, N.add_0_r|]. rewrite IH. replace (i + len (x :: l)) with (i + 1 + len l) by (rewrite len_cons; lia). tauto.
Qed.
Lemma spares_same f r : forall l l' i, Forall2 same_values l l' -> spares f i l r -> spares f i l' r.
Proof.
  intros l l' i H. revert i. induction H as [|x x' l l' H1 _ IH]; intros i; [easy|]. cbn [spares]. intros [M1 M2]. split; [|now apply IH]. intro HX. apply M1.
  destruct x as [k vs oc|], x' as [k' vs' oc'|], r as [k2 vs2 oc2|]; cbn [same_values] in *; try easy. intuition congruence.
Qed.
Lemma same_refl r : same_values r r.
Proof. now destruct r. Qed.

(** ** Pages *)
(** A page whose rows are some of [F], where they were, and others that do not reach byte [u] of the heap. *)
Definition aside (b : build) (u : N) (y : N * row) : Prop := exists n, row_fits b (snd y) n /\ (u < fst y \/ fst y + n <= u).
Definition mild (b : build) (db : dbtype) (ps u : N) (F : list (N * row)) (p : page) : Prop :=
  exists h c, p = mk_page h (PData c) /\ alloc_ok b dstr_good db ps h c /\ u < ph_used h /\ Forall (fun y => In y F \/ aside b u y) (dc_rows c).
Lemma mild_grow b db ps u R p : mild b db ps u R p -> can_grow b db ps p.
Proof. intros (h & c & -> & H & _). now exists h, c. Qed.
Lemma step_mild b db ps u R p n r p' : mild b db ps u R p -> op_ok b dstr_good (ph_type (pg_header p)) (n, r) -> step b n r p = Ok p' -> mild b db ps u R p' /\ ph_type (pg_header p') = ph_type (pg_header p).
Proof.
  intros (h & c & -> & HOK & HU & HR) HO HS. cbn [pg_header] in *. destruct (step_ok b dstr_good db ps h c n r p' HOK HO HS) as (h0 & c0 & new & EP & HOK' & (h1 & c1 & h2 & c2 & E1 & E2 & (_ & ET & _) & _) & _). assert (ph_type (pg_header p') = ph_type h) as EPT by (rewrite E2; injection E1 as -> ->; cbn [pg_header]; congruence).
  split; [|exact EPT]. destruct HO as [HB HI]. cbn [fst snd] in *. unfold step in HS. destruct (alloc_row b n (mk_page h (PData c))) as [[p1 t]| |] eqn:EA; try easy. cbn [res_bind] in HS. destruct t as [t|].
  - destruct r as [r|].
    + destruct (insert_row_ok b _ db ps h c n p1 t r p' HOK HB HI EA HS) as (h' & gs' & -> & HOK2 & _ & _ & HU2). exists h', (mk_dcontent (dc_header c) gs' (dc_rows c ++ [(ph_used h, r)])). split; [reflexivity|]. split; [exact HOK2|].
      cbn [dc_rows]. split; [lia|]. apply Forall_app. split; [exact HR|]. constructor; [|constructor]. right. destruct HI as (_ & _ & _ & HFI). exists (up4 n). cbn [fst snd]. split; [exact HFI|]. left. lia.
    + injection HS as <-. destruct (alloc_row_ok b _ db ps h c n p1 t HOK HB EA) as (h' & gs' & -> & HOK2 & _ & _ & HU2 & _). exists h', (mk_dcontent (dc_header c) gs' (dc_rows c)). split; [reflexivity|]. split; [exact HOK2|]. split; [lia|exact HR].
  - assert (p' = p1) as -> by (destruct r; congruence). pose proof HOK as ((P1 & P2 & P3 & P4 & P5 & P6 & P7 & _) & H0 & H1 & _).
    destruct (alloc_eq b n h c HB) as (gs & E & _); [lia|easy|easy|]. rewrite EA in E. destruct (ph_free h <? up4 n + 6); [|destruct (8191 <=? c_rows (ph_counts h)); easy]. injection E as ->. now exists h, c.
Qed.
Lemma run_mild b db ps u R : forall ops p p', mild b db ps u R p -> Forall (op_ok b dstr_good (ph_type (pg_header p))) ops -> run b ops p = Ok p' -> mild b db ps u R p'.
Proof.
  induction ops as [|[n r] ops IH]; intros p p' HF HO HR; cbn [run] in HR; [now injection HR as <-|]. inversion HO as [|? ? O1 O2]; subst. destruct (step b n r p) as [p1| |] eqn:E; try easy. cbn [res_bind] in HR.
  destruct (step_mild b db ps u R p n r p1 HF O1 E) as [HF1 ET]. apply (IH p1 p' HF1); [now rewrite ET|exact HR].
Qed.
Lemma delete_mild b db ps u R i p p' s : mild b db ps u R p -> page_consistent b db ps p -> page_writes b ps p -> like s p -> delete_row b i p = Ok p' -> mild b db ps u R p'.
Proof.
  intros HF HC HW HL HD. destruct (delete_sound b db ps i p s GGrow p' HC HW (conj (mild_grow _ _ _ _ _ _ HF) HW) HL HD) as (_ & _ & [(h' & c' & EP & HOK) _] & _). destruct HF as (h & c & -> & _ & HU & HR).
  exists h', c'. split; [exact EP|]. split; [exact HOK|]. unfold delete_row in HD. cbn [pg_content pg_header] in HD. destruct (getN (dc_rows c) i) as [[o r]|]; [|rewrite EP in HD; injection HD as <- <-; now split].
  destruct (wsub b 16 (c_valid (ph_counts h)) 1) as [v| |]; try easy. cbn [res_bind] in HD. destruct (set_valid (ph_counts h) v) as [n| |]; try easy. cbn [res_bind] in HD. rewrite EP in HD. injection HD as <- <-. cbn [dc_rows ph_used phdr_upd]. split; [exact HU|].
  rewrite Forall_forall in *. intros x Hx. apply HR. unfold map_remove in Hx. apply filter_In in Hx. now destruct Hx.
Qed.
Lemma relabel_mild b db ps u R n t p s : mild b db ps u R p -> page_consistent b db ps p -> page_writes b ps p -> like s p -> is_u32 n -> ptype_ok db t -> t = sh_type s \/ sh_rows s = [] -> mild b db ps u R (relabel n t p).
Proof.
  intros HF HC HW HL HN HT HS. destruct (relabel_sound b db ps GGrow n t p s HC HW (conj (mild_grow _ _ _ _ _ _ HF) HW) HL HN HT HS) as (_ & _ & [(h' & c' & EP & HOK) _] & _). destruct HF as (h & c & -> & _ & HU & HR).
  exists h', c'. split; [exact EP|]. split; [exact HOK|]. unfold relabel in EP. cbn [pg_content pg_header] in EP. injection EP as <- <-. now split.
Qed.

(** ** The page in the file *)
Definition kept (b : build) (db : dbtype) (ps i u : N) (R : list (N * row)) (io : list N) : Prop :=
  exists p l, mild b db ps u R p /\ page_consistent b db ps p /\ page_pieces b ps (i * ps) p l /\ segs_in io l /\ segs_within (i * ps) ((i + 1) * ps) l.
Lemma kept_reads b db ps i u R io0 io q z : rooted b (i * ps + 40) io0 R -> kept b db ps i u R io -> bytes_ok io -> rd_page b (rd_dstr b) ps db io (i * ps) = Ok (q, z) -> mild b db ps u R q.
Proof.
  intros HT (p & l & (h & c & -> & HOK & HU & HR) & HC & HP & HS & _) HB HRD. destruct HC as [HO HTI]. cbn [pg_content pg_header] in *. destruct HP as [rows' HE]. cbn [pg_content pg_header] in *.
  destruct (reread_dpage b db ps (i * ps) h c l rows' io q z HO HTI HB HE HS HRD) as (c' & -> & _ & _ & HOK'). exists h, c'. split; [reflexivity|]. split; [now apply HOK'|]. split; [exact HU|].
  destruct (dpage_wr b (rd_dstr b) dstr_good db ps h c io (i * ps) l rows') as (q' & R' & (gs & -> & HG)); try easy; [apply dstr_good_wr|destruct HTI as [HTI _]; lia|]. rewrite HRD in R'. injection R' as -> _. cbn [dc_rows].
  unfold dpage_segs in HE. destruct (hdr_bytes b h c) as [hb| |]; try easy. cbn [res_bind] in HE. destruct (rows_segs b (i * ps + 40) (dc_rows c)) as [[lr rows2]| |] eqn:ER; try easy. cbn [res_bind] in HE. injection HE as _ <-.
  apply rows_segs_spec in ER. destruct HO as (_ & _ & _ & _ & _ & _ & _ & _ & _ & _ & P11). clear -ER HR HT P11. induction ER as [|x y X Y (E1 & ls & p & E2 & _) _ IH]; [constructor|]. inversion HR as [|? ? H1 H2]; inversion P11 as [|? ? [Q1 _] Q3]; subst. constructor; [|now apply IH]. destruct H1 as [H1|(n & H1 & H3)].
  2:{ right. exists n. rewrite <- E1. split; [|exact H3]. now apply (explicit_fits b (snd x) (i * ps + 40 + fst x) ls (snd y) p n). }
  left. destruct (HT x H1) as (ls' & p' & E3 & _). rewrite E2 in E3. injection E3 as _ E3 _. replace y with x; [exact H1|]. destruct x, y; cbn in *; congruence.
Qed.
(** Writing such a page leaves the first [u] bytes of its rows alone. *)
Lemma mild_write b db ps i u R p l io0 s x : mild b db ps u R p -> rooted b (i * ps + 40) io0 R -> page_pieces b ps (i * ps) p l -> In s l -> fst s <= x < seg_end s -> x = i * ps + 40 + u ->
  getN (snd s) (x - fst s) = getN io0 x.
Proof.
  intros (h & c & -> & HOK & HU & HR) HT [rows' HE] HI HX X1. cbn [pg_content pg_header] in *. pose proof (alloc_ok_tidy _ _ _ _ _ _ HOK) as [HTI _]. destruct HOK as ((P1 & P2 & P3 & P4 & P5 & P6 & P7 & _ & _ & _ & P11) & A1 & A2 & A3 & _).
  unfold dpage_segs in HE. destruct (hdr_bytes_ok db b h c P3 P5) as (hb & dh & _ & L1 & _ & L2 & E3). rewrite E3 in HE. cbn [res_bind] in HE. destruct (rows_segs b (i * ps + 40) (dc_rows c)) as [[lr rows2]| |] eqn:ER; try easy. cbn [res_bind] in HE. injection HE as <- _.
  destruct HI as [<-|HI]; [exfalso; unfold seg_end in HX; cbn [fst snd] in HX; rewrite len_app in HX; lia|]. apply in_app_iff in HI as [HI|HI].
  - exfalso. pose proof (footer_bound h (dc_groups c) P7 P6 A3) as HFB. assert (36 * len (dc_groups c) <= i * ps + ps) as HG by lia.
    destruct (groups_within (dc_groups c) (i * ps + ps) P7 HG) as [HW _]. unfold segs_within in HW. rewrite Forall_forall in HW. specialize (HW s HI). lia.
  - destruct (rows_segs_in b _ s _ _ _ ER HI) as (y & ls & r & q & HY & E & HS). rewrite Forall_forall in HR, P11. destruct (HR y HY) as [HY'|HY'].
    + destruct (HT y HY') as (ls' & q' & E' & HSI). rewrite E in E'. injection E' as <- _ _. unfold segs_in in HSI. rewrite Forall_forall in HSI. specialize (HSI s HS). apply has_get in HSI as [_ HG]. unfold seg_end in HX.
      specialize (HG (x - fst s)). replace (fst s + (x - fst s)) with x in HG by lia. symmetry. apply HG. lia.
    + exfalso. destruct HY' as (n & HFI & HD). destruct (HFI _ _ _ _ E) as [_ HWI]. unfold segs_within in HWI. rewrite Forall_forall in HWI. specialize (HWI s HS). lia.
Qed.

(** ** Databases *)
Record still (b : build) (db : dbtype) (io0 : list N) (ps i u : N) (R : list (N * row)) (d : database) : Prop := {
  still_bytes : forall x, x = i * ps + 40 + u -> x < len io0 -> getN (db_io d) x = getN io0 x;
  still_page : forall q, getN (db_pages d) (i - 1) = Some (Some q) -> mild b db ps u R q;
  still_file : getN (db_pages d) (i - 1) = Some None -> kept b db ps i u R (db_io d) }.
Lemma same_still b db io0 ps i u R d d' : db_io d' = db_io d -> getN (db_pages d') (i - 1) = getN (db_pages d) (i - 1) -> still b db io0 ps i u R d -> still b db io0 ps i u R d'.
Proof. intros E1 E2 [H1 H2 H3]. split; [now rewrite E1|now rewrite E2|now rewrite E1, E2]. Qed.
(** Saving, the page that is in the file afterwards, and the bytes. *)
Lemma flush_kept b io0 i u R d d' : 1 <= i -> savable b d -> flush b d = DOk d' -> let ps := dh_page_size (db_header d) in rooted b (i * ps + 40) io0 R -> 40 + u < ps -> i <= len (db_pages d) ->
  still b (db_kind d) io0 ps i u R d -> still b (db_kind d) io0 ps i u R d' /\ kept b (db_kind d) ps i u R (db_io d').
Proof.
  intros H1 HS HF ps HT HUP HIL [HB HP HN]. pose proof (savable_inside b d HS) as HIN. destruct HS as (S0 & _ & S2 & S3 & _). pose proof HF as HF'.
  apply flush_pieces in HF as (_ & _ & D3 & ls & HLS & EIO & HPC); try easy. fold ps in EIO, HPC. cbv zeta in HPC.
  assert (kept b (db_kind d) ps i u R (db_io d')) as HFD.
  { destruct (getN_lt_Some (db_pages d) (i - 1)) as [[q|] EQ]; [lia| |].
    - destruct (flush_segs_in b d d' (i - 1) q S2 HIN HF' EQ) as (l & P1 & P2 & P3). fold ps in P1, P2. replace (i - 1 + 1) with i in P1, P2 by lia. replace (i - 1 + 2) with (i + 1) in P2 by lia.
      pose proof (HP q EQ) as HFQ. pose proof (grow_consistent _ _ _ _ (mild_grow _ _ _ _ _ _ HFQ)) as HC. destruct (consistent_pieces _ _ _ _ _ _ HC P1) as [C1 C2]. exists q, l. repeat (split; [easy|]). split; [now apply P3|easy].
    - destruct (HN EQ) as (p & l & F1 & F2 & F3 & F4 & F5). exists p, l. repeat (split; [easy|]). split; [|easy]. destruct (consistent_pieces _ _ _ _ _ _ F2 F3) as [_ HNE].
      apply (segs_in_frame (db_io d) (db_io d') (i * ps) ((i + 1) * ps) l F4 F5 HNE). intros x X1 X2 X3. rewrite EIO. apply write_segs_same; [exact X3|]. intros s [<-|Hs] HC.
      + exfalso. unfold seg_end in HC. cbn [fst snd] in HC. rewrite len_header_page in HC by easy. fold ps in HC. nia.
      + exfalso. apply in_concat in Hs as (l0 & HL0 & Hs). apply in_getN in HL0 as (k & HK). apply HPC in HK as [HW HK]. unfold segs_within in HW. rewrite Forall_forall in HW. pose proof (HW s Hs) as HWS.
        assert (k = i - 1) as -> by nia. rewrite EQ in HK. subst l0. easy. }
  split; [|exact HFD]. split; [|now rewrite D3|intros _; exact HFD].
  intros x X1 X3. specialize (HB x X1 X3). destruct (getN_lt_Some io0 x X3) as [y EY]. assert (x < len (db_io d)) as XL by (rewrite EY in HB; now apply getN_Some_lt in HB).
  rewrite EIO, write_segs_same; [exact HB|exact XL|]. intros s [<-|Hs] HC.
  - exfalso. unfold seg_end in HC. cbn [fst snd] in HC. rewrite len_header_page in HC by easy. fold ps in HC. nia.
  - apply in_concat in Hs as (l0 & HL0 & Hs). apply in_getN in HL0 as (k & HK). apply HPC in HK as [HW HK]. unfold segs_within in HW. rewrite Forall_forall in HW. pose proof (HW s Hs) as HWS.
    assert (k = i - 1) as -> by nia. destruct (getN (db_pages d) (i - 1)) as [[q|]|] eqn:EQ; [|subst l0; easy|subst l0; easy].
    replace ((i - 1 + 1) * ps) with (i * ps) in HK by (f_equal; lia). rewrite HB. now apply (mild_write b (db_kind d) ps i u R q l0 io0 s x (HP q eq_refl) HT HK).
Qed.
(** Loading page [j] and putting [p'] in its place. *)
Lemma putting_still b db io0 ps i u R d j d1 p p' : 1 <= i -> 1 <= j -> (j = i -> mild b db ps u R p') -> still b db io0 ps i u R d -> loaded d d1 j p -> still b db io0 ps i u R (set_page d1 j p').
Proof.
  intros H1 H2 HN [HB HP HD] (D1 & D2 & D3 & D4 & D5). assert (in_memory d1 j p) as HM by (split; [easy|]; rewrite D5, N.eqb_refl; easy).
  split; [change (db_io (set_page d1 j p')) with (db_io d1); now rewrite D1| |]; rewrite (getN_set_page d1 j p p' (i - 1)) by easy; rewrite D5; change (db_io (set_page d1 j p')) with (db_io d1); rewrite ?D1; destruct (i - 1 =? j - 1) eqn:E; try easy.
  intros q [= <-]. apply HN. lia.
Qed.
Lemma page_still b io0 i u R d p : let ps := dh_page_size (db_header d) in i < 2 ^ 32 -> ps < 2 ^ 32 -> bytes_ok (db_io d) -> rooted b (i * ps + 40) io0 R -> still b (db_kind d) io0 ps i u R d -> page_of b d i p -> mild b (db_kind d) ps u R p.
Proof.
  intros ps HI32 HPS HBY HT [HB HP HD] [H1 [HM|[HM HR]]]; [now apply HP|]. rewrite read_page_eq in HR by easy. fold ps in HR.
  destruct (rd_page b (rd_dstr b) ps (db_kind d) (db_io d) (i * ps)) as [[q z]| |] eqn:ER; try easy. injection HR as ->. now apply (kept_reads b (db_kind d) ps i u R io0 (db_io d) p z HT (HD HM)).
Qed.
Lemma assign_mild b db ps u R f i p s : mild b db ps u R p -> page_consistent b db ps p -> page_writes b ps p -> like s p -> modest_rows b f i (sh_rows s) -> (forall y, In y R -> spares f i (sh_rows s) (snd y)) -> mild b db ps u R (assign_page f i p).
Proof.
  intros HF HC HW HL HM HSP. destruct (assign_sound b db ps f i p s GGrow HC HW (conj (mild_grow _ _ _ _ _ _ HF) HW) HL HM) as (_ & _ & [(h' & c' & EP & HOK) _] & _). destruct HF as (h & c & -> & HOK0 & HU & HR).
  destruct HL as (_ & _ & _ & _ & LR). cbn [rows_of_page pg_content] in LR. pose proof (modest_rows_same b f _ _ i LR HM) as HM'.
  assert (forall y, In y R -> spares f i (map snd (dc_rows c)) (snd y)) as HSP' by (intros y HY; now apply (spares_same f (snd y) (sh_rows s)), HSP).
  exists h', c'. split; [exact EP|]. split; [exact HOK|]. cbn [assign_page pg_content pg_header] in EP. injection EP as <- <-. cbn [dc_rows]. split; [exact HU|].
  destruct HOK0 as ((_ & _ & _ & _ & _ & _ & _ & _ & _ & _ & P11) & _). cbn [page_writes pg_content] in HW. clear -HR HM' HSP' P11 HW. revert i HM' HSP'. induction (dc_rows c) as [|[o r] rows IH]; intros i HM HSP; [constructor|].
  inversion HR as [|? ? R1 R2]; inversion P11 as [|? ? [Q1 _] Q2]; inversion HW as [|? ? W1 W2]; subst. cbn [map snd modest_rows assign_rows spares] in *. destruct HM as [M1 M2]. constructor; [|apply IH; try easy; intros y HY; now apply HSP].
  destruct R1 as [R1|(n & R1 & R3)].
  - left. rewrite (leaves_assign (f i) r); [exact R1|]. apply (HSP (o, r) R1). apply same_refl.
  - right. exists n. split; [|exact R3]. cbn [snd] in *. now apply (modest_row b (f i) r).
Qed.

(** ** Programs *)
Section programs.
Context (b : build) (io0 : list N) (ps i u : N) (F : list (N * row)) (H1 : 1 <= i) (HRT : rooted b (i * ps + 40) io0 F) (HUP : 40 + u < ps).
(** Assigning to the rows of a table. *)
Lemma assign_n_still k f G : forall n c d it A j l, dh_page_size (db_header d) = ps -> stores b d G A -> live d it -> it_next it = Some j -> it_off it <= j -> path A (it_last it) j l -> (length l < n)%nat ->
  Forall (fun x => G x <> GAny) l -> forallb (is_variant k) (flat_map (shelf_rows A) l) = true -> modest_rows b f c (flat_map (shelf_rows A) l) ->
  (forall y, In i l -> In y F -> spares f c (flat_map (shelf_rows A) l) (snd y)) -> still b (db_kind d) io0 ps i u F d -> still b (db_kind d) io0 ps i u F (fst (assign_n b k f n c d it)).
Proof.
  induction n as [|n IH]; intros c d it A j l EPS HS HV HN HO HP HF HG HK HM HSP HST; [lia|].
  assert (exists s l', l = j :: l' /\ A j = Some s) as (s & l' & -> & EA) by (inversion HP; subst; eauto).
  destruct (proj2 (proj2 HS) j s EA) as (p & HPO & _ & HLK). destruct (iter_next_page b d it j p HV HN HO HPO) as (d1 & it1 & E1 & HV1 & HLD & HO1 & HL1 & HN1).
  inversion HG as [|? ? G1 G2]; subst. cbn [flat_map] in HK, HM, HSP. unfold shelf_rows in HK at 1. unfold shelf_rows in HM at 1. rewrite EA in HK, HM. rewrite forallb_app in HK. apply andb_true_iff in HK as [K1 K2].
  assert (shelf_rows A j = sh_rows s) as ESR by (unfold shelf_rows; now rewrite EA). rewrite ESR in HSP.
  apply modest_app in HM as [M1 M2]. destruct (assign_stores b d G A j f c s d1 p HS EA G1 M1 HPO HLD) as (S1 & S2 & S3). pose proof HLK as (_ & LN & _ & _ & LR).
  cbn [assign_n]. rewrite E1. rewrite (same_variants k _ _ LR), K1. rewrite (Forall2_len _ _ _ LR). set (d2 := set_page d1 j (assign_page f c p)) in *.
  assert (live d2 it1) as HV2. { destruct HV1 as [V1 V2]. split; [easy|]. unfold d2, set_page. cbn [with_pages db_pages]. now rewrite len_set_nth. }
  pose proof HPO as [HJ _]. pose proof (DbFacts.page_of_range b d j p HPO) as HPR. pose proof HS as ((S0 & SH & _ & SP & _) & _). destruct SH as (X1 & _ & X3 & _). unfold is_u32 in X1, X3.
  assert (still b (db_kind d) io0 (dh_page_size (db_header d)) i u F d2) as HST2.
  { apply (putting_still b _ io0 _ i u F d j d1 p); try easy. intros ->. destruct (stores_sound b d G A i s p HS EA G1 HPO) as (C1 & C2 & _ & C4). apply (assign_mild b _ _ u F f c p s); try easy.
    - apply (page_still b io0 i u F d p); try easy. lia.
    - intros y HY. destruct (proj1 (spares_app f (snd y) _ _ _) (HSP y (or_introl eq_refl) HY)) as [HX _]. exact HX. }
  inversion HP as [s0 E|? s0 l0 NE E HI HP']; subst.
  - rewrite N.eqb_refl in HN1. destruct n as [|n]; [cbn in HF; lia|]. cbn [assign_n]. unfold iter_next. now rewrite HN1.
  - rewrite EA in E. injection E as <-. replace (j =? it_last it) with false in HN1 by lia. rewrite LN in HN1.
    assert (~ In j l') as HNI. { intro HX. apply path_ge in HP'. rewrite Forall_forall in HP'. apply HP' in HX. lia. }
    rewrite <- S3. apply (IH (c + len (sh_rows s)) d2 it1 (put A j (revise f c s)) (sh_next s) l'); try easy; [now rewrite S2|lia|rewrite HL1; now apply path_put|cbn [length] in HF; lia|now rewrite put_rows|now rewrite put_rows| |].
    + intros y HY1 HY2. rewrite put_rows by easy. apply (proj1 (spares_app f (snd y) _ _ _) (HSP y (or_intror HY1) HY2)).
    + now rewrite S3.
Qed.
Lemma assign_all_still k f G P d A : dh_page_size (db_header d) = ps -> stores b d G A -> act_ok b (db_header d) G P A (AAssignAll k f) -> (forall y, In y F -> act_spares P A i (snd y) (AAssignAll k f)) ->
  still b (db_kind d) io0 ps i u F d -> still b (db_kind d) io0 ps i u F (fst (assign_all b k f d)).
Proof.
  intros EPS HS (m & t & HT & HP & HG & HK & HM) HSP HST. assert (1 <= tb_first t) as H2.
  { assert (exists s', A (tb_first t) = Some s') as [s' E'] by (inversion HP; subst; eauto). destruct (proj2 (proj2 HS) _ _ E') as (p & [X _] & _). exact X. }
  unfold assign_all, iter_pages. rewrite HT. apply (assign_n_still k f G _ 0 d (iter_of d t) A (tb_first t) (P k)); try easy; try apply iter_of_live.
  - assert (forall i s, A i = Some s -> i <= len (db_pages d)) as HB.
    { intros j s E. destruct (proj2 (proj2 HS) _ _ E) as (p & HX & _). apply page_of_range in HX. lia. }
    pose proof (path_length A _ _ _ _ HP HB) as HX. unfold len in HX. lia.
  - intros y HY1 HY2. now apply (HSP y HY2).
Qed.
Lemma does_still d a d' G P A : dh_page_size (db_header d) = ps -> i < dh_next (db_header d) -> stores b d G A -> act_ok b (db_header d) G P A a -> does b d a d' ->
  (forall y, In y F -> act_spares P A i (snd y) a) -> still b (db_kind d) io0 ps i u F d -> still b (db_kind d) io0 ps i u F d'.
Proof.
  intros EPS HIN HS HA HD HN HC.
  assert (forall j s, A j = Some s -> 1 <= j /\ j < 2 ^ 32 /\ ps < 2 ^ 32) as HR.
  { intros j s E. destruct (proj2 (proj2 HS) j s E) as (q & HPO & _). pose proof (DbFacts.page_of_range b d j q HPO) as HX. destruct HS as ((_ & S1 & _ & S3 & _) & _). destruct S1 as (X1 & _ & X3 & _). unfold is_u32 in *. rewrite EPS in X1. lia. }
  assert (forall s p, A i = Some s -> page_of b d i p -> mild b (db_kind d) ps u F p) as HF.
  { intros s p E HL. destruct (HR i s E) as (R1 & R2 & R3). pose proof HS as ((S0 & _) & _). clear HA HD HN HR. subst ps. now apply (page_still b io0 i u F d p). }
  destruct HD as [j ops d1 p p' HL HX|j f d1 p HL|k f d1 HL|j m d1 p p' HL HX|d1 HFL]; cbn [act_ok] in *.
  - destruct HA as (s & E & HA). cbn [fst snd] in E, HA. destruct (HR j s E) as (R1 & R2 & R3). pose proof (load_of b d j d1 p R1 HL) as HPO. apply load_effect in HL as [HLD _]; [|easy]. apply (putting_still b _ io0 ps i u F d j d1 p); try easy. intros ->.
    destruct HA as [[_ ->]|[HG HA]]; [cbn [run] in HX; injection HX as <-; now apply (HF s)|]. pose proof (HF s p E HPO) as HFT.
    destruct (stores_sound b d G A i s p HS E) as (_ & _ & _ & (ET & _)); [now rewrite HG|easy|]. apply (run_mild b (db_kind d) ps u F ops p p' HFT); [|exact HX]. rewrite ET. eapply Forall_impl; [|exact HA]. now intros ? [? _].
  - destruct HA as (s & E & HG & HM). destruct (HR j s E) as (R1 & _). pose proof (load_of b d j d1 p R1 HL) as HPO. apply load_effect in HL as [HLD _]; [|easy]. apply (putting_still b _ io0 ps i u F d j d1 p); try easy. intros ->.
    destruct (stores_sound b d G A i s p HS E HG HPO) as (C1 & C2 & _ & C4). rewrite EPS in C1, C2. apply (assign_mild b _ ps u F f 0 p s); try easy; [now apply (HF s)|]. intros y HY. now apply (HN y HY).
  - pose proof (assign_all_still k f G P d A EPS HS HA HN HC) as HX. now rewrite HL in HX.
  - destruct HA as [[s E] HG]. destruct (HR j s E) as (R1 & _). pose proof (load_of b d j d1 p R1 HL) as HPO. apply load_effect in HL as [HLD _]; [|easy]. apply (putting_still b _ io0 ps i u F d j d1 p); try easy. intros ->. destruct (stores_sound b d G A i s p HS E HG HPO) as (C1 & C2 & _ & C4).
    rewrite EPS in C1, C2. apply (delete_mild b _ ps u F m p p' s); try easy. now apply (HF s).
  - pose proof HS as [HSV _]. clear HA HN HF HR. subst ps. apply (flush_kept b io0 i u F d d1); try easy. destruct HSV as (_ & _ & _ & S3 & _). lia.
Qed.
Lemma acts_still : forall d as' d', acts b d as' d' -> forall G P A, dh_page_size (db_header d) = ps -> i < dh_next (db_header d) -> stores b d G A -> acts_ok b (db_header d) G P A as' ->
  (forall y, In y F -> acts_spare P A i (snd y) as') -> still b (db_kind d) io0 ps i u F d -> still b (db_kind d) io0 ps i u F d'.
Proof.
  intros d as' d' H. induction H as [d|d a d1 as' d2 HD _ IH]; intros G P A EPS HIN HS HA HN HC; [easy|]. cbn [acts_ok] in HA. destruct HA as [A1 A2]. cbn [acts_spare] in HN.
  destruct (does_stores b d a d1 G P A HS A1 HD) as (S1 & S2 & S3). rewrite <- S3. apply (IH G P (act_work P A a)); try (now rewrite S2); [exact S1|intros y HY; now apply HN|]. rewrite S3. apply (does_still d a d1 G P A); try easy. intros y HY. now apply HN.
Qed.
Lemma performs_still d a d' G st : dh_page_size (db_header d) = ps -> i < dh_next (db_header d) -> stores b d G (snd st) -> db_header d = fst st -> task_ok b (db_kind d) G st a -> performs b d a d' ->
  (forall y, In y F -> task_spares st i (snd y) a) -> still b (db_kind d) io0 ps i u F d -> still b (db_kind d) io0 ps i u F d'.
Proof.
  intros EPS HIN HS HH HA HD HN HC. destruct HD as [P as' d1 HL|j n t d1 p HL|f]; cbn [task_ok task_spares] in *.
  - rewrite <- HH in HA. now apply (acts_still d as' d1 HL G P (snd st)).
  - destruct HA as (s & E & HG & HN1 & HT & HTS). destruct (proj2 (proj2 HS) j s E) as (q & HPQ & _). pose proof (DbFacts.page_of_range b d j q HPQ) as HX. assert (page_of b d j p) as HPO by (now apply (load_of b d j d1)).
    apply load_effect in HL as [HLD _]; [|easy]. apply (putting_still b _ io0 ps i u F d j d1 p); try easy. intros ->.
    destruct (stores_sound b d G _ i s p HS E HG HPO) as (C1 & C2 & _ & C4). rewrite EPS in C1, C2. apply (relabel_mild b _ ps u F n t p s); try easy.
    destruct HS as ((S0 & S1 & _ & S3 & _) & _). destruct S1 as (X1 & _ & X3 & _). unfold is_u32 in *. clear C1 C2. subst ps. apply (page_still b io0 i u F d p); try easy. lia.
  - now apply (same_still b _ io0 ps i u F d).
Qed.
Lemma tasks_still : forall d ts d', tasks b d ts d' -> forall G st, dh_page_size (db_header d) = ps -> i < dh_next (db_header d) -> stores b d G (snd st) -> db_header d = fst st -> tasks_ok b (db_kind d) G st ts ->
  (forall y, In y F -> tasks_spare st i (snd y) ts) -> still b (db_kind d) io0 ps i u F d -> still b (db_kind d) io0 ps i u F d'.
Proof.
  intros d ts d' H. induction H as [d|d a d1 ts d2 HD _ IH]; intros G st EPS HIN HS HH HA HN HC; [easy|]. cbn [tasks_ok] in HA. destruct HA as [A1 A2]. cbn [tasks_spare] in HN.
  destruct (performs_stores b d a d1 G st HS HH A1 HD) as (S1 & S2 & S3). destruct (task_next b (db_kind d) G st a A1) as [N1 N2]. rewrite <- S3.
  apply (IH G (task_work st a)); [now rewrite S2, N2, <- HH|now rewrite S2, N1, <- HH|exact S1|exact S2|now rewrite S3|intros y HY; now apply HN|]. rewrite S3. apply (performs_still d a d1 G st); try easy. intros y HY; now apply HN.
Qed.
Lemma tasks_spare_app j r : forall l l' st, tasks_spare st j r (l ++ l') <-> tasks_spare st j r l /\ tasks_spare (tasks_work st l) j r l'.
Proof. induction l as [|a l IH]; intros l' st; cbn [app tasks_spare]; [tauto|]. rewrite IH. unfold tasks_work. cbn [fold_left]. tauto. Qed.
Lemma jobs_still k : forall io ls io', jobs b k io ls io' -> forall d G st, db_open io k = DOk d -> dh_page_size (db_header d) = ps -> i < dh_next (db_header d) -> stores b d G (snd st) -> db_header d = fst st -> tasks_ok b k G st (concat ls) ->
  (forall y, In y F -> tasks_spare st i (snd y) (concat ls)) -> kept b k ps i u F io ->
  (forall x, x = i * ps + 40 + u -> x < len io0 -> getN io x = getN io0 x) ->
  (forall x, x = i * ps + 40 + u -> x < len io0 -> getN io' x = getN io0 x).
Proof.
  intros io ls io' H. induction H as [io|io ts io1 ls io2 HS1 _ IH]; intros d G st HO EPS HIN HS HH HA HN HFD HX; [easy|]. cbn [concat] in HA, HN. apply tasks_ok_app in HA as [A1 A2].
  assert (forall y, In y F -> tasks_spare st i (snd y) ts /\ tasks_spare (tasks_work st ts) i (snd y) (concat ls)) as HN' by (intros y HY; now apply tasks_spare_app, HN). clear HN. pose proof (open_kind io k d HO) as HK. pose proof (open_none io k d HO) as [EIO HNONE].
  destruct (job_stores b k io ts io1 d G st HO HS HH A1 HS1) as (d1 & O1 & O2 & O3). destruct (tasks_next b k G ts st A1) as [N1 N2].
  assert (still b k io0 ps i u F d) as HC. { split; [now rewrite EIO|intros q HQ; now apply HNONE in HQ|intros _; now rewrite EIO]. }
  destruct HS1 as (d0 & d2 & d3 & E0 & HE & HF & <-). rewrite HO in E0. injection E0 as <-. rewrite <- HK in A1.
  assert (still b k io0 ps i u F d2) as HC2. { rewrite <- HK. apply (tasks_still d ts d2 HE G st); try easy; [intros y HY; now apply HN'|now rewrite HK]. }
  destruct (tasks_stores b d ts d2 HE G st HS HH A1) as (S1 & S2 & S3). assert (dh_page_size (db_header d2) = ps) as EP2 by (now rewrite S2, N2, <- HH). assert (dh_next (db_header d2) = dh_next (db_header d)) as EN2 by (now rewrite S2, N1, <- HH).
  destruct (flush_kept b io0 i u F d2 d3 H1 (proj1 S1) HF) as [[HB _ _] HFD3].
  { now rewrite EP2. } { now rewrite EP2. } { destruct S1 as ((_ & _ & _ & S4 & _) & _). lia. } { now rewrite EP2, S3, HK. }
  rewrite EP2, S3, HK in HFD3. rewrite EP2 in HB.
  apply (IH d1 G (tasks_work st ts) O1); [now rewrite O2, N2, <- HH|rewrite O2, N1, <- HH; exact HIN|exact O3|exact O2|exact A2|intros y HY; now apply HN'|exact HFD3|exact HB].
Qed.
End programs.
