(** Inserting and deleting rows leaves the bytes of the rows alone (C105). *)
From Coq Require Import NArith ZArith List Bool Lia.
From Coq Require Import ZifyBool ZifyNat ZifyN.
From Verif Require Import Base BaseFacts Segs Str StrFacts StrGood Schema SchemaFacts Oa OaFacts OaSpec Rows RowFacts RowSpec Page BitFacts PageFacts PageRw PageSpec IndexSpec Alloc AllocFacts AllocSpec Db DbFacts DbFlush DbFresh Reread Progress Insert Session Delete Revise Relink Untouched.
Import ListNotations.
Open Scope N_scope.

(** ** Spec *)
(** The pages in which programs assign values to rows. *)
Definition act_assigns (P : rkind -> list N) (a : act) : list N := match a with AAssign j _ => [j] | AAssignAll k _ => P k | _ => [] end.
Definition task_assigns (a : task) : list N := match a with TActs P l => flat_map (act_assigns P) l | _ => [] end.
Definition assigned (l : list task) : list N := flat_map task_assigns l.

(** ** Rows *)
Lemma rows_segs_in b base s : forall rows l rows', rows_segs b base rows = Ok (l, rows') -> In s l ->
  exists x ls r p, In x rows /\ row_segs b (snd x) (base + fst x) = Ok (ls, r, p) /\ In s ls.
Proof.
  induction rows as [|[o r] rows IH]; intros l rows' H HI; cbn [rows_segs] in H; [injection H as <- <-; easy|].
  destruct (row_segs b r (base + o)) as [[[ls r'] p]| |] eqn:E; [|easy|easy]. cbn [res_bind] in H.
  destruct (rows_segs b base rows) as [[l2 rest']| |] eqn:E2; [|easy|easy]. cbn [res_bind] in H. injection H as <- <-. apply in_app_iff in HI as [HI|HI].
  - exists (o, r), ls, r', p. split; [now left|]. now split.
  - destruct (IH _ _ eq_refl HI) as (x & ls2 & r2 & p2 & H1 & H2). exists x, ls2, r2, p2. split; [now right|exact H2].
Qed.
(** The bytes of these rows are in the file; writing the rows would not change them. *)
Definition rooted (b : build) (base : N) (io : list N) (R : list (N * row)) : Prop :=
  forall x, In x R -> exists ls p, row_segs b (snd x) (base + fst x) = Ok (ls, snd x, p) /\ segs_in io ls.
Lemma rows_rooted b base io R l : rows_segs b base R = Ok (l, R) -> segs_in io l -> rooted b base io R.
Proof.
  intros H HI x Hx. apply rows_segs_spec in H. assert (forall X Y, Forall2 (fun x y => fst x = fst y /\ exists ls p, row_segs b (snd x) (base + fst x) = Ok (ls, snd y, p) /\ incl ls l) X Y -> X = Y ->
    Forall (fun x => exists ls p, row_segs b (snd x) (base + fst x) = Ok (ls, snd x, p) /\ incl ls l) X) as HX.
  { induction 1 as [|a c X Y [_ HA] _ IH]; intro E; [constructor|]. injection E as -> E. constructor; [exact HA|now apply IH]. }
  apply HX in H; [|reflexivity]. rewrite Forall_forall in H. destruct (H x Hx) as (ls & p & E & HL). exists ls, p. split; [exact E|]. unfold segs_in in *. rewrite Forall_forall in *. intros s Hs. apply HI, HL, Hs.
Qed.

(** ** Pages *)
(** A page whose rows are some of [R], where they were, and others behind the first [u] bytes. *)
Definition fit (b : build) (db : dbtype) (ps u : N) (R : list (N * row)) (p : page) : Prop :=
  exists h c, p = mk_page h (PData c) /\ alloc_ok b dstr_good db ps h c /\ u <= ph_used h /\ Forall (fun x => In x R \/ u <= fst x) (dc_rows c).
Lemma fit_grow b db ps u R p : fit b db ps u R p -> can_grow b db ps p.
Proof. intros (h & c & -> & H & _). now exists h, c. Qed.
Lemma step_fit b db ps u R p n r p' : fit b db ps u R p -> op_ok b dstr_good (ph_type (pg_header p)) (n, r) -> step b n r p = Ok p' -> fit b db ps u R p' /\ ph_type (pg_header p') = ph_type (pg_header p).
Proof.
  intros (h & c & -> & HOK & HU & HR) HO HS. cbn [pg_header] in *. destruct (step_ok b dstr_good db ps h c n r p' HOK HO HS) as (h0 & c0 & new & EP & HOK' & (h1 & c1 & h2 & c2 & E1 & E2 & (_ & ET & _) & _) & _). assert (ph_type (pg_header p') = ph_type h) as EPT by (rewrite E2; injection E1 as -> ->; cbn [pg_header]; congruence).
  split; [|exact EPT]. destruct HO as [HB HI]. cbn [fst snd] in *. unfold step in HS. destruct (alloc_row b n (mk_page h (PData c))) as [[p1 t]| |] eqn:EA; try easy. cbn [res_bind] in HS. destruct t as [t|].
  - destruct r as [r|].
    + destruct (insert_row_ok b _ db ps h c n p1 t r p' HOK HB HI EA HS) as (h' & gs' & -> & HOK2 & _ & _ & HU2). exists h', (mk_dcontent (dc_header c) gs' (dc_rows c ++ [(ph_used h, r)])). split; [reflexivity|]. split; [exact HOK2|].
      cbn [dc_rows]. split; [lia|]. apply Forall_app. split; [exact HR|]. constructor; [right; cbn [fst]; lia|constructor].
    + injection HS as <-. destruct (alloc_row_ok b _ db ps h c n p1 t HOK HB EA) as (h' & gs' & -> & HOK2 & _ & _ & HU2 & _). exists h', (mk_dcontent (dc_header c) gs' (dc_rows c)). split; [reflexivity|]. split; [exact HOK2|]. split; [lia|exact HR].
  - assert (p' = p1) as -> by (destruct r; congruence). pose proof HOK as ((P1 & P2 & P3 & P4 & P5 & P6 & P7 & _) & H0 & H1 & _).
    destruct (alloc_eq b n h c HB) as (gs & E & _); [lia|easy|easy|]. rewrite EA in E. destruct (ph_free h <? up4 n + 6); [|destruct (8191 <=? c_rows (ph_counts h)); easy]. injection E as ->. now exists h, c.
Qed.
Lemma run_fit b db ps u R : forall ops p p', fit b db ps u R p -> Forall (op_ok b dstr_good (ph_type (pg_header p))) ops -> run b ops p = Ok p' -> fit b db ps u R p'.
Proof.
  induction ops as [|[n r] ops IH]; intros p p' HF HO HR; cbn [run] in HR; [now injection HR as <-|]. inversion HO as [|? ? O1 O2]; subst. destruct (step b n r p) as [p1| |] eqn:E; try easy. cbn [res_bind] in HR.
  destruct (step_fit b db ps u R p n r p1 HF O1 E) as [HF1 ET]. apply (IH p1 p' HF1); [now rewrite ET|exact HR].
Qed.
Lemma delete_fit b db ps u R i p p' s : fit b db ps u R p -> page_consistent b db ps p -> page_writes b ps p -> like s p -> delete_row b i p = Ok p' -> fit b db ps u R p'.
Proof.
  intros HF HC HW HL HD. destruct (delete_sound b db ps i p s GGrow p' HC HW (conj (fit_grow _ _ _ _ _ _ HF) HW) HL HD) as (_ & _ & [(h' & c' & EP & HOK) _] & _). destruct HF as (h & c & -> & _ & HU & HR).
  exists h', c'. split; [exact EP|]. split; [exact HOK|]. unfold delete_row in HD. cbn [pg_content pg_header] in HD. destruct (getN (dc_rows c) i) as [[o r]|]; [|rewrite EP in HD; injection HD as <- <-; now split].
  destruct (wsub b 16 (c_valid (ph_counts h)) 1) as [v| |]; try easy. cbn [res_bind] in HD. destruct (set_valid (ph_counts h) v) as [n| |]; try easy. cbn [res_bind] in HD. rewrite EP in HD. injection HD as <- <-. cbn [dc_rows ph_used phdr_upd]. split; [exact HU|].
  rewrite Forall_forall in *. intros x Hx. apply HR. unfold map_remove in Hx. apply filter_In in Hx. now destruct Hx.
Qed.
Lemma relabel_fit b db ps u R n t p s : fit b db ps u R p -> page_consistent b db ps p -> page_writes b ps p -> like s p -> is_u32 n -> ptype_ok db t -> t = sh_type s \/ sh_rows s = [] -> fit b db ps u R (relabel n t p).
Proof.
  intros HF HC HW HL HN HT HS. destruct (relabel_sound b db ps GGrow n t p s HC HW (conj (fit_grow _ _ _ _ _ _ HF) HW) HL HN HT HS) as (_ & _ & [(h' & c' & EP & HOK) _] & _). destruct HF as (h & c & -> & _ & HU & HR).
  exists h', c'. split; [exact EP|]. split; [exact HOK|]. unfold relabel in EP. cbn [pg_content pg_header] in EP. injection EP as <- <-. now split.
Qed.

(** ** The page in the file *)
Definition filed (b : build) (db : dbtype) (ps i u : N) (R : list (N * row)) (io : list N) : Prop :=
  exists p l, fit b db ps u R p /\ page_consistent b db ps p /\ page_pieces b ps (i * ps) p l /\ segs_in io l /\ segs_within (i * ps) ((i + 1) * ps) l.
Lemma filed_reads b db ps i u R io0 io q z : rooted b (i * ps + 40) io0 R -> filed b db ps i u R io -> bytes_ok io -> rd_page b (rd_dstr b) ps db io (i * ps) = Ok (q, z) -> fit b db ps u R q.
Proof.
  intros HT (p & l & (h & c & -> & HOK & HU & HR) & HC & HP & HS & _) HB HRD. destruct HC as [HO HTI]. cbn [pg_content pg_header] in *. destruct HP as [rows' HE]. cbn [pg_content pg_header] in *.
  destruct (reread_dpage b db ps (i * ps) h c l rows' io q z HO HTI HB HE HS HRD) as (c' & -> & _ & _ & HOK'). exists h, c'. split; [reflexivity|]. split; [now apply HOK'|]. split; [exact HU|].
  destruct (dpage_wr b (rd_dstr b) dstr_good db ps h c io (i * ps) l rows') as (q' & R' & (gs & -> & HG)); try easy; [apply dstr_good_wr|destruct HTI as [HTI _]; lia|]. rewrite HRD in R'. injection R' as -> _. cbn [dc_rows].
  unfold dpage_segs in HE. destruct (hdr_bytes b h c) as [hb| |]; try easy. cbn [res_bind] in HE. destruct (rows_segs b (i * ps + 40) (dc_rows c)) as [[lr rows2]| |] eqn:ER; try easy. cbn [res_bind] in HE. injection HE as _ <-.
  apply rows_segs_spec in ER. clear -ER HR HT. induction ER as [|x y X Y (E1 & ls & p & E2 & _) _ IH]; [constructor|]. inversion HR as [|? ? H1 H2]; subst. constructor; [|now apply IH]. destruct H1 as [H1|H1]; [|right; now rewrite <- E1].
  left. destruct (HT x H1) as (ls' & p' & E3 & _). rewrite E2 in E3. injection E3 as _ E3 _. replace y with x; [exact H1|]. destruct x, y; cbn in *; congruence.
Qed.
(** Writing such a page leaves the first [u] bytes of its rows alone. *)
Lemma fit_write b db ps i u R p l io0 s x : fit b db ps u R p -> rooted b (i * ps + 40) io0 R -> page_pieces b ps (i * ps) p l -> In s l -> fst s <= x < seg_end s -> i * ps + 40 <= x -> x < i * ps + 40 + u ->
  getN (snd s) (x - fst s) = getN io0 x.
Proof.
  intros (h & c & -> & HOK & HU & HR) HT [rows' HE] HI HX X1 X2. cbn [pg_content pg_header] in *. pose proof (alloc_ok_tidy _ _ _ _ _ _ HOK) as [HTI _]. destruct HOK as ((P1 & P2 & P3 & P4 & P5 & P6 & P7 & _ & _ & _ & P11) & A1 & A2 & A3 & _).
  unfold dpage_segs in HE. destruct (hdr_bytes_ok db b h c P3 P5) as (hb & dh & _ & L1 & _ & L2 & E3). rewrite E3 in HE. cbn [res_bind] in HE. destruct (rows_segs b (i * ps + 40) (dc_rows c)) as [[lr rows2]| |] eqn:ER; try easy. cbn [res_bind] in HE. injection HE as <- _.
  destruct HI as [<-|HI]; [exfalso; unfold seg_end in HX; cbn [fst snd] in HX; rewrite len_app in HX; lia|]. apply in_app_iff in HI as [HI|HI].
  - exfalso. pose proof (footer_bound h (dc_groups c) P7 P6 A3) as HFB. assert (36 * len (dc_groups c) <= i * ps + ps) as HG by lia.
    destruct (groups_within (dc_groups c) (i * ps + ps) P7 HG) as [HW _]. unfold segs_within in HW. rewrite Forall_forall in HW. specialize (HW s HI). lia.
  - destruct (rows_segs_in b _ s _ _ _ ER HI) as (y & ls & r & q & HY & E & HS). rewrite Forall_forall in HR, P11. destruct (HR y HY) as [HY'|HY'].
    + destruct (HT y HY') as (ls' & q' & E' & HSI). rewrite E in E'. injection E' as <- _ _. unfold segs_in in HSI. rewrite Forall_forall in HSI. specialize (HSI s HS). apply has_get in HSI as [_ HG]. unfold seg_end in HX.
      specialize (HG (x - fst s)). replace (fst s + (x - fst s)) with x in HG by lia. symmetry. apply HG. lia.
    + exfalso. destruct (P11 y HY) as [HOKR _]. pose proof (row_segs_ge b _ _ _ _ _ _ HOKR E) as HGE. rewrite Forall_forall in HGE. specialize (HGE s HS). lia.
Qed.

(** ** Databases *)
Record firm (b : build) (db : dbtype) (io0 : list N) (ps i u : N) (R : list (N * row)) (d : database) : Prop := {
  firm_bytes : forall x, i * ps + 40 <= x -> x < i * ps + 40 + u -> x < len io0 -> getN (db_io d) x = getN io0 x;
  firm_page : forall q, getN (db_pages d) (i - 1) = Some (Some q) -> fit b db ps u R q;
  firm_file : getN (db_pages d) (i - 1) = Some None -> filed b db ps i u R (db_io d) }.
Lemma same_firm b db io0 ps i u R d d' : db_io d' = db_io d -> getN (db_pages d') (i - 1) = getN (db_pages d) (i - 1) -> firm b db io0 ps i u R d -> firm b db io0 ps i u R d'.
Proof. intros E1 E2 [H1 H2 H3]. split; [now rewrite E1|now rewrite E2|now rewrite E1, E2]. Qed.
(** Saving, the page that is in the file afterwards, and the bytes. *)
Lemma flush_filed b io0 i u R d d' : 1 <= i -> savable b d -> flush b d = DOk d' -> let ps := dh_page_size (db_header d) in rooted b (i * ps + 40) io0 R -> 40 + u <= ps -> i <= len (db_pages d) ->
  firm b (db_kind d) io0 ps i u R d -> firm b (db_kind d) io0 ps i u R d' /\ filed b (db_kind d) ps i u R (db_io d').
Proof.
  intros H1 HS HF ps HT HUP HIL [HB HP HN]. pose proof (savable_inside b d HS) as HIN. destruct HS as (S0 & _ & S2 & S3 & _). pose proof HF as HF'.
  apply flush_pieces in HF as (_ & _ & D3 & ls & HLS & EIO & HPC); try easy. fold ps in EIO, HPC. cbv zeta in HPC.
  assert (filed b (db_kind d) ps i u R (db_io d')) as HFD.
  { destruct (getN_lt_Some (db_pages d) (i - 1)) as [[q|] EQ]; [lia| |].
    - destruct (flush_segs_in b d d' (i - 1) q S2 HIN HF' EQ) as (l & P1 & P2 & P3). fold ps in P1, P2. replace (i - 1 + 1) with i in P1, P2 by lia. replace (i - 1 + 2) with (i + 1) in P2 by lia.
      pose proof (HP q EQ) as HFQ. pose proof (grow_consistent _ _ _ _ (fit_grow _ _ _ _ _ _ HFQ)) as HC. destruct (consistent_pieces _ _ _ _ _ _ HC P1) as [C1 C2]. exists q, l. repeat (split; [easy|]). split; [now apply P3|easy].
    - destruct (HN EQ) as (p & l & F1 & F2 & F3 & F4 & F5). exists p, l. repeat (split; [easy|]). split; [|easy]. destruct (consistent_pieces _ _ _ _ _ _ F2 F3) as [_ HNE].
      apply (segs_in_frame (db_io d) (db_io d') (i * ps) ((i + 1) * ps) l F4 F5 HNE). intros x X1 X2 X3. rewrite EIO. apply write_segs_same; [exact X3|]. intros s [<-|Hs] HC.
      + exfalso. unfold seg_end in HC. cbn [fst snd] in HC. rewrite len_header_page in HC by easy. fold ps in HC. nia.
      + exfalso. apply in_concat in Hs as (l0 & HL0 & Hs). apply in_getN in HL0 as (k & HK). apply HPC in HK as [HW HK]. unfold segs_within in HW. rewrite Forall_forall in HW. pose proof (HW s Hs) as HWS.
        assert (k = i - 1) as -> by nia. rewrite EQ in HK. subst l0. easy. }
  split; [|exact HFD]. split; [|now rewrite D3|intros _; exact HFD].
  intros x X1 X2 X3. specialize (HB x X1 X2 X3). destruct (getN_lt_Some io0 x X3) as [y EY]. assert (x < len (db_io d)) as XL by (rewrite EY in HB; now apply getN_Some_lt in HB).
  rewrite EIO, write_segs_same; [exact HB|exact XL|]. intros s [<-|Hs] HC.
  - exfalso. unfold seg_end in HC. cbn [fst snd] in HC. rewrite len_header_page in HC by easy. fold ps in HC. nia.
  - apply in_concat in Hs as (l0 & HL0 & Hs). apply in_getN in HL0 as (k & HK). apply HPC in HK as [HW HK]. unfold segs_within in HW. rewrite Forall_forall in HW. pose proof (HW s Hs) as HWS.
    assert (k = i - 1) as -> by nia. destruct (getN (db_pages d) (i - 1)) as [[q|]|] eqn:EQ; [|subst l0; easy|subst l0; easy].
    replace ((i - 1 + 1) * ps) with (i * ps) in HK by (f_equal; lia). rewrite HB. now apply (fit_write b (db_kind d) ps i u R q l0 io0 s x (HP q eq_refl) HT HK).
Qed.
(** Loading page [j] and putting [p'] in its place. *)
Lemma put_firm b db io0 ps i u R d j d1 p p' : 1 <= i -> 1 <= j -> (j = i -> fit b db ps u R p') -> firm b db io0 ps i u R d -> load_page b d j = (d1, DOk p) -> firm b db io0 ps i u R (set_page d1 j p').
Proof.
  intros H1 H2 HN [HB HP HD] HL. apply load_effect in HL as [(D1 & D2 & D3 & D4 & D5) _]; [|easy]. assert (in_memory d1 j p) as HM by (split; [easy|]; rewrite D5, N.eqb_refl; easy).
  split; [change (db_io (set_page d1 j p')) with (db_io d1); now rewrite D1| |]; rewrite (getN_set_page d1 j p p' (i - 1)) by easy; rewrite D5; change (db_io (set_page d1 j p')) with (db_io d1); rewrite ?D1; destruct (i - 1 =? j - 1) eqn:E; try easy.
  intros q [= <-]. apply HN. lia.
Qed.
Lemma load_firm b io0 i u R d d1 p : let ps := dh_page_size (db_header d) in i < 2 ^ 32 -> ps < 2 ^ 32 -> bytes_ok (db_io d) -> 1 <= i -> rooted b (i * ps + 40) io0 R -> firm b (db_kind d) io0 ps i u R d -> load_page b d i = (d1, DOk p) -> fit b (db_kind d) ps u R p.
Proof.
  intros ps HI32 HPS HBY H1 HT [HB HP HD] HL'. unfold load_page in HL'. rewrite wsub_ok in HL' by lia. destruct (i - 1 <? len (db_pages d)); [|easy]. unfold load_entry in HL'.
  destruct (getN (db_pages d) (i - 1)) as [[q|]|] eqn:EG; [injection HL' as <- <-; now apply HP| |easy].
  replace (read_page b d i) with (match rd_page b (rd_dstr b) ps (db_kind d) (db_io d) (i * ps) with Ok (p, _) => DOk p | Err e => DErr (DParse e) | Panic => DPanic end) in HL' by (symmetry; now apply read_page_eq).
  destruct (rd_page b (rd_dstr b) ps (db_kind d) (db_io d) (i * ps)) as [[q z]| |] eqn:ER; try easy. injection HL' as <- <-. now apply (filed_reads b (db_kind d) ps i u R io0 (db_io d) q z HT (HD eq_refl)).
Qed.
Lemma load_of b d j d1 p : 1 <= j -> load_page b d j = (d1, DOk p) -> page_of b d j p.
Proof.
  intros HJ HL. split; [exact HJ|]. unfold load_page in HL. rewrite wsub_ok in HL by lia. destruct (j - 1 <? len (db_pages d)); [|easy]. unfold load_entry in HL.
  destruct (getN (db_pages d) (j - 1)) as [[q|]|]; [injection HL as <- <-; now left| |easy]. right. split; [reflexivity|]. destruct (read_page b d j); try easy. now injection HL as <- <-.
Qed.
(** Assigning to the rows of a table leaves the other pages alone. *)
Lemma assign_n_other b k f G m : 1 <= m -> forall n i d it A j l, stores b d G A -> live d it -> it_next it = Some j -> it_off it <= j -> path A (it_last it) j l -> (length l < n)%nat ->
  Forall (fun x => G x <> GAny) l -> forallb (is_variant k) (flat_map (shelf_rows A) l) = true -> modest_rows b f i (flat_map (shelf_rows A) l) -> ~ In m l ->
  db_io (fst (assign_n b k f n i d it)) = db_io d /\ getN (db_pages (fst (assign_n b k f n i d it))) (m - 1) = getN (db_pages d) (m - 1).
Proof.
  intro H1. induction n as [|n IH]; intros i d it A j l HS HV HN HO HP HF HG HK HM HIN; [lia|].
  assert (exists s l', l = j :: l' /\ A j = Some s) as (s & l' & -> & EA) by (inversion HP; subst; eauto).
  destruct (proj2 (proj2 HS) j s EA) as (p & HPO & _ & HLK). destruct (iter_next_page b d it j p HV HN HO HPO) as (d1 & it1 & E1 & HV1 & HLD & HO1 & HL1 & HN1).
  inversion HG as [|? ? G1 G2]; subst. cbn [flat_map] in HK, HM. unfold shelf_rows in HK at 1. unfold shelf_rows in HM at 1. rewrite EA in HK, HM. rewrite forallb_app in HK. apply andb_true_iff in HK as [K1 K2].
  apply modest_app in HM as [M1 M2]. destruct (assign_stores b d G A j f i s d1 p HS EA G1 M1 HPO HLD) as (S1 & S2 & S3). pose proof HLK as (_ & LN & _ & _ & LR).
  cbn [assign_n]. rewrite E1. rewrite (same_variants k _ _ LR), K1. rewrite (Forall2_len _ _ _ LR). set (d2 := set_page d1 j (assign_page f i p)) in *.
  assert (live d2 it1) as HV2. { destruct HV1 as [V1 V2]. split; [easy|]. unfold d2, set_page. cbn [with_pages db_pages]. now rewrite len_set_nth. }
  assert (db_io d2 = db_io d /\ getN (db_pages d2) (m - 1) = getN (db_pages d) (m - 1)) as [C1 C2].
  { pose proof HPO as [HJ _]. destruct HLD as (D1 & D2 & D3 & D4 & D5). assert (in_memory d1 j p) as HMM by (split; [easy|]; rewrite D5, N.eqb_refl; easy). 
    split; [change (db_io d2) with (db_io d1); now rewrite D1|]. unfold d2. rewrite (getN_set_page d1 j p _ (m - 1)) by easy. rewrite D5. replace (m - 1 =? j - 1) with false; [reflexivity|]. assert (j <> m) by (intros ->; apply HIN; now left). lia. }
  inversion HP as [s0 E|? s0 l0 NE E HI HP']; subst.
  - rewrite N.eqb_refl in HN1. destruct n as [|n]; [cbn in HF; lia|]. cbn [assign_n]. unfold iter_next. now rewrite HN1.
  - rewrite EA in E. injection E as <-. replace (j =? it_last it) with false in HN1 by lia. rewrite LN in HN1.
    assert (~ In j l') as HNI. { intro HX. apply path_ge in HP'. rewrite Forall_forall in HP'. apply HP' in HX. lia. }
    rewrite <- C1, <- C2. apply (IH (i + len (sh_rows s)) d2 it1 (put A j (revise f i s)) (sh_next s) l'); try easy; [lia|rewrite HL1; now apply path_put|cbn [length] in HF; lia|now rewrite put_rows|now rewrite put_rows|]. intro HX. apply HIN. now right.
Qed.
Lemma assign_all_other b k f G P d A m : 1 <= m -> stores b d G A -> act_ok b (db_header d) G P A (AAssignAll k f) -> ~ In m (P k) ->
  db_io (fst (assign_all b k f d)) = db_io d /\ getN (db_pages (fst (assign_all b k f d))) (m - 1) = getN (db_pages d) (m - 1).
Proof.
  intros Hm HS (i & t & HT & HP & HG & HK & HM) HIN. assert (1 <= tb_first t) as H1.
  { assert (exists s', A (tb_first t) = Some s') as [s' E'] by (inversion HP; subst; eauto). destruct (proj2 (proj2 HS) _ _ E') as (p & [X _] & _). exact X. }
  unfold assign_all, iter_pages. rewrite HT. apply (assign_n_other b k f G m Hm _ 0 d (iter_of d t) A (tb_first t) (P k)); try easy; try apply iter_of_live.
  assert (forall i s, A i = Some s -> i <= len (db_pages d)) as HB.
  { intros j s E. destruct (proj2 (proj2 HS) _ _ E) as (p & HX & _). apply page_of_range in HX. lia. }
  pose proof (path_length A _ _ _ _ HP HB) as HX. unfold len in HX. lia.
Qed.

(** ** Programs *)
Section programs.
Context (b : build) (io0 : list N) (ps i u : N) (R : list (N * row)) (H1 : 1 <= i) (HRT : rooted b (i * ps + 40) io0 R) (HUP : 40 + u <= ps).
Lemma does_firm d a d' G P A : dh_page_size (db_header d) = ps -> i < dh_next (db_header d) -> stores b d G A -> act_ok b (db_header d) G P A a -> does b d a d' ->
  ~ In i (act_assigns P a) -> firm b (db_kind d) io0 ps i u R d -> firm b (db_kind d) io0 ps i u R d'.
Proof.
  intros EPS HIN HS HA HD HN HC.
  assert (forall j s, A j = Some s -> 1 <= j /\ j < 2 ^ 32 /\ ps < 2 ^ 32) as HR.
  { intros j s E. destruct (proj2 (proj2 HS) j s E) as (q & HPO & _). pose proof (DbFacts.page_of_range b d j q HPO) as HX. destruct HS as ((_ & S1 & _ & S3 & _) & _). destruct S1 as (X1 & _ & X3 & _). unfold is_u32 in *. rewrite EPS in X1. lia. }
  assert (forall j d1 p, 1 <= j -> load_page b d j = (d1, DOk p) -> page_of b d j p) as HPG.
  { intros j d1 p HJ HL. now apply (load_of b d j d1). }
  assert (forall s d1 p, A i = Some s -> load_page b d i = (d1, DOk p) -> fit b (db_kind d) ps u R p) as HF.
  { intros s d1 p E HL. destruct (HR i s E) as (R1 & R2 & R3). subst ps. apply (load_firm b io0 i u R d d1 p); try easy. destruct HS as ((S0 & _) & _). exact S0. }
  destruct HD as [j ops d1 p p' HL HX|j f d1 p HL|k f d1 HL|j m d1 p p' HL HX|d1 HFL]; cbn [act_ok act_assigns] in *.
  - destruct HA as (s & E & HA). cbn [fst snd] in E, HA. destruct (HR j s E) as (R1 & R2 & R3). apply (put_firm b _ io0 ps i u R d j d1 p); try easy. intros ->.
    destruct HA as [[_ ->]|[HG HA]]; [cbn [run] in HX; injection HX as <-; now apply (HF s d1)|]. pose proof (HF s d1 p E HL) as HFT.
    destruct (stores_sound b d G A i s p HS E) as (_ & _ & _ & (ET & _)); [now rewrite HG|now apply (HPG i d1)|]. apply (run_fit b (db_kind d) ps u R ops p p' HFT); [|exact HX]. rewrite ET. eapply Forall_impl; [|exact HA]. now intros ? [? _].
  - destruct HA as (s & E & _). destruct (HR j s E) as (R1 & _). apply (put_firm b _ io0 ps i u R d j d1 p); try easy. intros ->. exfalso. apply HN. now left.
  - destruct (assign_all_other b k f G P d A i H1 HS HA HN) as [X1 X2]. rewrite HL in X1, X2. cbn [fst] in X1, X2. now apply (same_firm b _ io0 ps i u R d d1).
  - destruct HA as [[s E] HG]. destruct (HR j s E) as (R1 & _). apply (put_firm b _ io0 ps i u R d j d1 p); try easy. intros ->. destruct (stores_sound b d G A i s p HS E HG) as (C1 & C2 & _ & C4); [now apply (HPG i d1)|].
    rewrite EPS in C1, C2. apply (delete_fit b _ ps u R m p p' s); try easy. now apply (HF s d1).
  - pose proof HS as [HSV _]. subst ps. apply (flush_filed b io0 i u R d d1); try easy. destruct HSV as (_ & _ & _ & S3 & _). lia.
Qed.
Lemma acts_firm : forall d as' d', acts b d as' d' -> forall G P A, dh_page_size (db_header d) = ps -> i < dh_next (db_header d) -> stores b d G A -> acts_ok b (db_header d) G P A as' ->
  ~ In i (flat_map (act_assigns P) as') -> firm b (db_kind d) io0 ps i u R d -> firm b (db_kind d) io0 ps i u R d'.
Proof.
  intros d as' d' H. induction H as [d|d a d1 as' d2 HD _ IH]; intros G P A EPS HIN HS HA HN HC; [easy|]. cbn [acts_ok] in HA. destruct HA as [A1 A2]. cbn [flat_map] in HN. rewrite in_app_iff in HN.
  destruct (does_stores b d a d1 G P A HS A1 HD) as (S1 & S2 & S3). rewrite <- S3. apply (IH G P (act_work P A a)); try (now rewrite S2); [exact S1|tauto|]. rewrite S3. apply (does_firm d a d1 G P A); try easy. tauto.
Qed.
Lemma performs_firm d a d' G st : dh_page_size (db_header d) = ps -> i < dh_next (db_header d) -> stores b d G (snd st) -> db_header d = fst st -> task_ok b (db_kind d) G st a -> performs b d a d' ->
  ~ In i (task_assigns a) -> firm b (db_kind d) io0 ps i u R d -> firm b (db_kind d) io0 ps i u R d'.
Proof.
  intros EPS HIN HS HH HA HD HN HC. destruct HD as [P as' d1 HL|j n t d1 p HL|f]; cbn [task_ok task_assigns] in *.
  - rewrite <- HH in HA. now apply (acts_firm d as' d1 HL G P (snd st)).
  - destruct HA as (s & E & HG & HN1 & HT & HTS). destruct (proj2 (proj2 HS) j s E) as (q & HPQ & _). pose proof (DbFacts.page_of_range b d j q HPQ) as HX. apply (put_firm b _ io0 ps i u R d j d1 p); try easy. intros ->.
    assert (page_of b d i p) as HPO by (now apply (load_of b d i d1)). destruct (stores_sound b d G _ i s p HS E HG HPO) as (C1 & C2 & _ & C4). rewrite EPS in C1, C2. apply (relabel_fit b _ ps u R n t p s); try easy.
    destruct HS as ((S0 & S1 & _ & S3 & _) & _). destruct S1 as (X1 & _ & X3 & _). unfold is_u32 in *. subst ps. apply (load_firm b io0 i u R d d1 p); try easy. lia.
  - now apply (same_firm b _ io0 ps i u R d).
Qed.
Lemma tasks_firm : forall d ts d', tasks b d ts d' -> forall G st, dh_page_size (db_header d) = ps -> i < dh_next (db_header d) -> stores b d G (snd st) -> db_header d = fst st -> tasks_ok b (db_kind d) G st ts ->
  ~ In i (assigned ts) -> firm b (db_kind d) io0 ps i u R d -> firm b (db_kind d) io0 ps i u R d'.
Proof.
  intros d ts d' H. induction H as [d|d a d1 ts d2 HD _ IH]; intros G st EPS HIN HS HH HA HN HC; [easy|]. cbn [tasks_ok] in HA. destruct HA as [A1 A2]. unfold assigned in HN. cbn [flat_map] in HN. rewrite in_app_iff in HN.
  destruct (performs_stores b d a d1 G st HS HH A1 HD) as (S1 & S2 & S3). destruct (task_next b (db_kind d) G st a A1) as [N1 N2]. rewrite <- S3.
  apply (IH G (task_work st a)); [now rewrite S2, N2, <- HH|now rewrite S2, N1, <- HH|exact S1|exact S2|now rewrite S3|unfold assigned; tauto|]. rewrite S3. apply (performs_firm d a d1 G st); try easy. tauto.
Qed.
Lemma jobs_firm k : forall io ls io', jobs b k io ls io' -> forall d G st, db_open io k = DOk d -> dh_page_size (db_header d) = ps -> i < dh_next (db_header d) -> stores b d G (snd st) -> db_header d = fst st -> tasks_ok b k G st (concat ls) ->
  ~ In i (assigned (concat ls)) -> filed b k ps i u R io ->
  (forall x, i * ps + 40 <= x -> x < i * ps + 40 + u -> x < len io0 -> getN io x = getN io0 x) ->
  (forall x, i * ps + 40 <= x -> x < i * ps + 40 + u -> x < len io0 -> getN io' x = getN io0 x) /\ filed b k ps i u R io'.
Proof.
  intros io ls io' H. induction H as [io|io ts io1 ls io2 HS1 _ IH]; intros d G st HO EPS HIN HS HH HA HN HFD HX; [now split|]. cbn [concat] in HA, HN. apply tasks_ok_app in HA as [A1 A2].
  unfold assigned in HN. rewrite flat_map_app, in_app_iff in HN. pose proof (open_kind io k d HO) as HK. pose proof (open_none io k d HO) as [EIO HNONE].
  destruct (job_stores b k io ts io1 d G st HO HS HH A1 HS1) as (d1 & O1 & O2 & O3). destruct (tasks_next b k G ts st A1) as [N1 N2].
  assert (firm b k io0 ps i u R d) as HC. { split; [now rewrite EIO|intros q HQ; now apply HNONE in HQ|intros _; now rewrite EIO]. }
  destruct HS1 as (d0 & d2 & d3 & E0 & HE & HF & <-). rewrite HO in E0. injection E0 as <-. rewrite <- HK in A1.
  assert (firm b k io0 ps i u R d2) as HC2. { rewrite <- HK. apply (tasks_firm d ts d2 HE G st); try easy; [unfold assigned; tauto|now rewrite HK]. }
  destruct (tasks_stores b d ts d2 HE G st HS HH A1) as (S1 & S2 & S3). assert (dh_page_size (db_header d2) = ps) as EP2 by (now rewrite S2, N2, <- HH). assert (dh_next (db_header d2) = dh_next (db_header d)) as EN2 by (now rewrite S2, N1, <- HH).
  destruct (flush_filed b io0 i u R d2 d3 H1 (proj1 S1) HF) as [[HB _ _] HFD3].
  { now rewrite EP2. } { now rewrite EP2. } { destruct S1 as ((_ & _ & _ & S4 & _) & _). lia. } { now rewrite EP2, S3, HK. }
  rewrite EP2, S3, HK in HFD3. rewrite EP2 in HB.
  apply (IH d1 G (tasks_work st ts) O1); [now rewrite O2, N2, <- HH|rewrite O2, N1, <- HH; exact HIN|exact O3|exact O2|exact A2|unfold assigned; tauto|exact HFD3|exact HB].
Qed.
End programs.
