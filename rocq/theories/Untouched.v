(** Which bytes of a database file programs leave alone (C104). *)
From Coq Require Import NArith ZArith List Bool Lia.
From Coq Require Import ZifyBool ZifyNat ZifyN.
From Verif Require Import Base BaseFacts Segs Str StrFacts StrGood Schema SchemaFacts Oa OaFacts OaSpec Rows RowFacts RowSpec Page BitFacts PageFacts PageRw PageSpec IndexSpec Alloc AllocFacts AllocSpec Db DbFacts DbFlush DbFresh Reread Progress Insert Session Revise Relink.
Import ListNotations.
Open Scope N_scope.

(** ** Spec *)
(** The pages that a program asks for, and those that it changes.  A page that gets no rows is only looked at.  [P k] are the pages of table [k]. *)
Definition act_asks (P : rkind -> list N) (a : act) : list N :=
  match a with AInsert j _ => [j] | AAssign j _ => [j] | AAssignAll k _ => P k | ADelete j _ => [j] | ASave => [] end.
Definition act_alters (P : rkind -> list N) (a : act) : list N :=
  match a with AInsert _ [] => [] | _ => act_asks P a end.
Definition task_asks (a : task) : list N := match a with TActs P l => flat_map (act_asks P) l | TLabel j _ _ => [j] | THeader _ => [] end.
Definition task_alters (a : task) : list N := match a with TActs P l => flat_map (act_alters P) l | TLabel j _ _ => [j] | THeader _ => [] end.
Definition asked (l : list task) : list N := flat_map task_asks l.
Definition altered (l : list task) : list N := flat_map task_alters l.

(** ** Segments *)
Lemma write_segs_same : forall L buf x, x < len buf -> (forall s, In s L -> fst s <= x < seg_end s -> getN (snd s) (x - fst s) = getN buf x) -> getN (write_segs buf L) x = getN buf x.
Proof.
  induction L as [|[p bs] L IH]; intros buf x Hx H; [easy|]. cbn [write_segs].
  assert (getN (write_at buf p bs) x = getN buf x) as E.
  { destruct bs as [|y bs]; [easy|]. rewrite getN_write_at by easy. destruct (x <? p) eqn:E1; [now replace (x <? len buf) with true by lia|].
    destruct (x <? p + len (y :: bs)) eqn:E2; [|easy]. apply (H (p, y :: bs)); [now left|]. unfold seg_end. cbn [fst snd]. lia. }
  rewrite IH; [exact E|pose proof (len_write_at_ge buf p bs); lia|]. intros s Hs HC. rewrite E. apply H; [now right|easy].
Qed.
Lemma write_segs_upto : forall L buf m, Forall (fun s => seg_end s <= m) L -> len (write_segs buf L) <= N.max (len buf) m.
Proof.
  induction L as [|[p bs] L IH]; intros buf m H; cbn [write_segs]; [lia|]. inversion H as [|? ? H1 H2]; subst. specialize (IH (write_at buf p bs) m H2).
  destruct bs as [|y bs]; [rewrite write_at_nil in *; lia|]. rewrite len_write_at in IH by easy. unfold seg_end in H1. cbn [fst snd] in H1. lia.
Qed.

(** ** Pages whose bytes are in the file *)
(** Writing page [p] at [pos] writes the segments [l], and the rows stay as they are. *)
Definition steady (b : build) (ps pos : N) (l : list seg) (p : page) : Prop :=
  page_pieces b ps pos p l /\ match pg_content p with PData c => dpage_segs b ps pos (pg_header p) c = Ok (l, dc_rows c) | PIndex _ => True end.
Lemma rg_same_seg g g' endp : rg_same g g' -> rg_seg g' endp = rg_seg g endp.
Proof. intros (E1 & E2 & E3 & E4). unfold rg_seg, rg_bytes. assert (rg_skip g' = rg_skip g) as E by (unfold rg_skip; now rewrite E1). now rewrite E, E1, E2, E4. Qed.
Lemma groups_same_segs gs gs' : Forall2 rg_same gs gs' -> forall endp, groups_segs gs' endp = groups_segs gs endp.
Proof. induction 1 as [|g g' gs gs' H _ IH]; intro endp; [easy|]. cbn [groups_segs]. now rewrite (rg_same_seg g g'), IH. Qed.
Lemma pieces_fun b ps pos p l l' : page_pieces b ps pos p l -> page_pieces b ps pos p l' -> l' = l.
Proof.
  unfold page_pieces. destruct (pg_content p) as [c|c]; [intros [r E] [r' E']; congruence|]. intros (hb & ib & E1 & _ & E2 & ->) (hb' & ib' & E1' & _ & E2' & ->). congruence.
Qed.
(** Reading the segments of a steady page gives a steady page with these segments. *)
Lemma steady_reads b db ps pos p l io q z : page_consistent b db ps p -> steady b ps pos l p -> segs_in io l -> rd_page b (rd_dstr b) ps db io pos = Ok (q, z) -> steady b ps pos l q.
Proof.
  intros HC [HP HE] HS HR. destruct p as [h [c|c]]; cbn [pg_content pg_header] in *.
  - unfold page_consistent in HC. cbn [pg_content pg_header] in HC. destruct HC as [HO HT]. pose proof HO as (P1 & P2 & P3 & P4 & P5 & P6 & P7 & _).
    destruct (dpage_wr b (rd_dstr b) dstr_good db ps h c io pos l (dc_rows c)) as (q' & R & gs & -> & HG); try easy; [apply dstr_good_wr|destruct HT as [HT _]; lia|].
    rewrite HR in R. injection R as -> ->. assert (dpage_segs b ps pos h (mk_dcontent (dc_header c) gs (dc_rows c)) = Ok (l, dc_rows c)) as E.
    { rewrite <- HE. unfold dpage_segs. cbn [dc_rows dc_groups]. rewrite (groups_same_segs _ _ HG). reflexivity. }
    split; [|exact E]. unfold page_pieces. cbn [pg_content pg_header]. now exists (dc_rows c).
  - destruct (stored_reads b db ps pos _ l io HC HP HS) as (q' & z' & R & Q). unfold page_reads_as in Q. cbn [pg_content] in Q. subst q'. rewrite HR in R. injection R as -> _. now split.
Qed.
(** A good page, see Session.v, is steady; an index page, if the empty entries behind its entries are as they would be written. *)
Definition tail_kept (ps : N) (io : list N) (i : N) (p : page) : Prop :=
  match pg_content p with PData _ => True | PIndex c => has io (i * ps + 60 + 4 * len (ic_entries c)) (index_tail ps (ih_num (ic_header c))) end.
Lemma good_steady b d g i p : bytes_ok (db_io d) -> len (db_io d) < 2 ^ 64 - 1 -> good_page b d g i p -> tail_kept (dh_page_size (db_header d)) (db_io d) i p ->
  let ps := dh_page_size (db_header d) in exists l, steady b ps (i * ps) l p /\ segs_in (db_io d) l.
Proof.
  intros HB HL (H1 & _ & HC & HW & _ & z & HR) HT ps. fold ps in HC, HW, HR, HT. assert (i * ps <= len (db_io d)) as HPL by (apply (rd_page_pos _ _ _ _ _ _ _ _ HB HR)).
  destruct p as [h [c|c]].
  - assert (40 <= ps /\ ps < 2 ^ 32) as [P1 P2] by (destruct HC as [(P1 & P2 & _) _]; now split).
    apply (dpage_rw b _ dstr_parsed) in HR as (_ & _ & _ & l & HE & HS); try easy; [|now apply rd_dstr_strict_rw].
    exists l. split; [|exact HS]. split; [unfold page_pieces; cbn [pg_content pg_header]; now exists (dc_rows c)|exact HE].
  - pose proof HC as (C1 & C2 & C3 & C4 & C5 & C6 & C7). cbn [pg_header] in *. apply (ipage_rw b) in HR as (_ & _ & _ & _ & _ & _ & hb & ib & E1 & E2 & HH); try easy.
    destruct (ipage_write_eq (db_kind d) b ps h c [] (i * ps) C6 C1 C3) as (hb' & ib' & E1' & L1 & E2' & L2 & _). assert (hb' = hb) by congruence. assert (ib' = ib) by congruence. subst hb' ib'.
    exists [(i * ps, hb ++ ib ++ flat_map (le_enc 4) (ic_entries c) ++ index_tail ps (ih_num (ic_header c)))]. split.
    + split; [|easy]. unfold page_pieces. cbn [pg_content pg_header]. now exists hb, ib.
    + constructor; [|constructor]. cbn [fst snd]. rewrite !app_assoc. apply has_app. rewrite <- !app_assoc. split; [exact HH|]. unfold tail_kept in HT. cbn [pg_content] in HT.
      replace (i * ps + len (hb ++ ib ++ flat_map (le_enc 4) (ic_entries c))) with (i * ps + 60 + 4 * len (ic_entries c)); [exact HT|]. rewrite !len_app, len_flat4, L1, L2. unfold len. lia.
Qed.

(** ** What the file and the memory have for one page *)
Record calm (b : build) (io0 : list N) (ps i : N) (l : list seg) (d : database) : Prop := {
  calm_bytes : forall x, i * ps <= x -> x < (i + 1) * ps -> x < len io0 -> getN (db_io d) x = getN io0 x;
  calm_page : forall q, getN (db_pages d) (i - 1) = Some (Some q) -> steady b ps (i * ps) l q }.
(** Page [i], when it is read from a file with the same bytes, is steady. *)
Definition ready (b : build) (db : dbtype) (io0 : list N) (ps i : N) (l : list seg) : Prop :=
  forall io q z, bytes_ok io -> (forall x, i * ps <= x -> x < (i + 1) * ps -> x < len io0 -> getN io x = getN io0 x) -> rd_page b (rd_dstr b) ps db io (i * ps) = Ok (q, z) -> steady b ps (i * ps) l q.
Lemma good_ready b d g i p l : let ps := dh_page_size (db_header d) in good_page b d g i p -> steady b ps (i * ps) l p -> segs_in (db_io d) l -> ready b (db_kind d) (db_io d) ps i l.
Proof.
  intros ps (H1 & _ & HC & HW & _) HS HI io q z HB HA HR. fold ps in HC, HW. apply (steady_reads b (db_kind d) ps (i * ps) p l io q z HC HS); [|exact HR].
  destruct HS as [HP _]. destruct (consistent_pieces _ _ _ _ _ _ HC HP) as [_ HNE]. destruct (page_write_ok b (db_kind d) ps _ [] (i * ps) HC HW) as [s HS2].
  pose proof (consistent_inside _ _ _ _ HC) as HIN. destruct (page_write_pieces b _ ps _ _ _ _ HIN HS2) as (l' & HP' & _ & HWI). pose proof (pieces_fun _ _ _ _ _ _ HP HP') as ->.
  apply (segs_in_frame (db_io d) io (i * ps) ((i + 1) * ps)); try easy. now replace ((i + 1) * ps) with (i * ps + ps) by lia.
Qed.
Lemma flush_calm b io0 i l d d' : 1 <= i -> savable b d -> segs_in io0 l -> flush b d = DOk d' -> let ps := dh_page_size (db_header d) in calm b io0 ps i l d -> calm b io0 ps i l d'.
Proof.
  intros H1 HS HI HF ps [HB HP]. pose proof (savable_inside b d HS) as HIN. destruct HS as (_ & _ & S2 & S3 & _).
  apply flush_pieces in HF as (_ & _ & D3 & ls & HLS & EIO & HPC); try easy. fold ps in EIO, HPC. cbv zeta in HPC. split; [|now rewrite D3].
  intros x X1 X2 X3. specialize (HB x X1 X2 X3). destruct (getN_lt_Some io0 x X3) as [y EY]. assert (x < len (db_io d)) as XL by (rewrite EY in HB; now apply getN_Some_lt in HB).
  rewrite EIO, write_segs_same; [exact HB|exact XL|]. intros s [<-|Hs] HC.
  - exfalso. unfold seg_end in HC. cbn [fst snd] in HC. rewrite len_header_page in HC by easy. fold ps in HC. nia.
  - apply in_concat in Hs as (l0 & HL0 & Hs). apply in_getN in HL0 as (k & HK). apply HPC in HK as [HW HK]. unfold segs_within in HW. rewrite Forall_forall in HW. pose proof (HW s Hs) as HWS.
    assert (k = i - 1) as -> by nia. destruct (getN (db_pages d) (i - 1)) as [[q|]|] eqn:EQ; [|subst l0; easy|subst l0; easy].
    destruct (HP q eq_refl) as [HPQ _]. replace ((i - 1 + 1) * ps) with (i * ps) in HK by (f_equal; lia). pose proof (pieces_fun _ _ _ _ _ _ HPQ HK) as ->.
    unfold segs_in in HI. rewrite Forall_forall in HI. specialize (HI s Hs). apply has_get in HI as [HI1 HI2]. specialize (HI2 (x - fst s)). unfold seg_end in HC. replace (fst s + (x - fst s)) with x in HI2 by lia. rewrite HB, <- HI2 by lia. easy.
Qed.
Lemma flush_upto b d d' : savable b d -> flush b d = DOk d' -> len (db_io d) <= len (db_io d') <= N.max (len (db_io d)) (N.max 1 (dh_next (db_header d)) * dh_page_size (db_header d)).
Proof.
  intros HS HF. pose proof (savable_inside b d HS) as HIN. destruct HS as (_ & _ & S2 & S3 & _). apply flush_pieces in HF as (_ & _ & _ & ls & HLS & -> & HPC); try easy. cbv zeta in HPC.
  split; [apply write_segs_len|]. apply write_segs_upto. constructor.
  - unfold seg_end. cbn [fst snd]. rewrite len_header_page by easy. nia.
  - apply Forall_forall. intros s Hs. apply in_concat in Hs as (l0 & HL0 & Hs). apply in_getN in HL0 as (k & HK). pose proof HK as HK'. apply getN_Some_lt in HK'. apply HPC in HK as [HW _].
    unfold segs_within in HW. rewrite Forall_forall in HW. specialize (HW s Hs). nia.
Qed.

(** ** Programs *)
(** Loading page [j] and putting [p'] in its place. *)
Lemma put_calm b io0 ps i l d j d1 p p' : 1 <= i -> 1 <= j -> j <> i -> calm b io0 ps i l d -> load_page b d j = (d1, DOk p) -> calm b io0 ps i l (set_page d1 j p').
Proof.
  intros H1 H2 HN [HB HP] HL. apply load_effect in HL as [(D1 & D2 & D3 & D4 & D5) _]; [|easy]. assert (in_memory d1 j p) as HM by (split; [easy|]; rewrite D5, N.eqb_refl; easy).
  split; [change (db_io (set_page d1 j p')) with (db_io d1); now rewrite D1|]. intros q. rewrite (getN_set_page d1 j p p' (i - 1)) by easy. rewrite D5. replace (i - 1 =? j - 1) with false by lia. apply HP.
Qed.
Lemma look_calm b io0 i l d d1 p : let ps := dh_page_size (db_header d) in i < 2 ^ 32 -> ps < 2 ^ 32 -> bytes_ok (db_io d) -> 1 <= i -> ready b (db_kind d) io0 ps i l -> calm b io0 ps i l d -> load_page b d i = (d1, DOk p) -> calm b io0 ps i l (set_page d1 i p).
Proof.
  intros ps HI32 HPS HBY H1 HRD [HB HP] HL. pose proof HL as HL'. apply load_effect in HL as [(D1 & D2 & D3 & D4 & D5) _]; [|easy]. assert (in_memory d1 i p) as HM by (split; [easy|]; rewrite D5, N.eqb_refl; easy).
  split; [change (db_io (set_page d1 i p)) with (db_io d1); now rewrite D1|]. intros q. rewrite (getN_set_page d1 i p p (i - 1)) by easy. rewrite N.eqb_refl. intros [= <-].
  unfold load_page in HL'. rewrite wsub_ok in HL' by lia. destruct (i - 1 <? len (db_pages d)); [|easy]. unfold load_entry in HL'.
  destruct (getN (db_pages d) (i - 1)) as [[q|]|] eqn:EG.
  - injection HL' as <- <-. now apply HP.
  - replace (read_page b d i) with (match rd_page b (rd_dstr b) ps (db_kind d) (db_io d) (i * ps) with Ok (p, _) => DOk p | Err e => DErr (DParse e) | Panic => DPanic end) in HL' by (symmetry; now apply read_page_eq).
    destruct (rd_page b (rd_dstr b) ps (db_kind d) (db_io d) (i * ps)) as [[q z]| |] eqn:ER; try easy. injection HL' as <- <-. now apply (HRD (db_io d) q z).
  - easy.
Qed.
Lemma assign_n_calm b k f G io0 ps m sg : 1 <= m -> forall n i d it A j l, stores b d G A -> live d it -> it_next it = Some j -> it_off it <= j -> path A (it_last it) j l -> (length l < n)%nat ->
  Forall (fun x => G x <> GAny) l -> forallb (is_variant k) (flat_map (shelf_rows A) l) = true -> modest_rows b f i (flat_map (shelf_rows A) l) -> ~ In m l -> calm b io0 ps m sg d ->
  calm b io0 ps m sg (fst (assign_n b k f n i d it)).
Proof.
  intro H1. induction n as [|n IH]; intros i d it A j l HS HV HN HO HP HF HG HK HM HIN HC; [lia|].
  assert (exists s l', l = j :: l' /\ A j = Some s) as (s & l' & -> & EA) by (inversion HP; subst; eauto).
  destruct (proj2 (proj2 HS) j s EA) as (p & HPO & _ & HLK). destruct (iter_next_page b d it j p HV HN HO HPO) as (d1 & it1 & E1 & HV1 & HLD & HO1 & HL1 & HN1).
  inversion HG as [|? ? G1 G2]; subst. cbn [flat_map] in HK, HM. unfold shelf_rows in HK at 1. unfold shelf_rows in HM at 1. rewrite EA in HK, HM. rewrite forallb_app in HK. apply andb_true_iff in HK as [K1 K2].
  apply modest_app in HM as [M1 M2]. destruct (assign_stores b d G A j f i s d1 p HS EA G1 M1 HPO HLD) as (S1 & S2 & S3). pose proof HLK as (_ & LN & _ & _ & LR).
  cbn [assign_n]. rewrite E1. rewrite (same_variants k _ _ LR), K1. rewrite (Forall2_len _ _ _ LR). set (d2 := set_page d1 j (assign_page f i p)) in *.
  assert (live d2 it1) as HV2. { destruct HV1 as [V1 V2]. split; [easy|]. unfold d2, set_page. cbn [with_pages db_pages]. now rewrite len_set_nth. }
  assert (calm b io0 ps m sg d2) as HC2.
  { pose proof HPO as [HJ _]. destruct HLD as (D1 & D2 & D3 & D4 & D5). assert (in_memory d1 j p) as HMM by (split; [easy|]; rewrite D5, N.eqb_refl; easy). destruct HC as [HB HQ].
    split; [change (db_io d2) with (db_io d1); now rewrite D1|]. intros q. unfold d2. rewrite (getN_set_page d1 j p _ (m - 1)) by easy. rewrite D5. replace (m - 1 =? j - 1) with false; [apply HQ|]. assert (j <> m) by (intros ->; apply HIN; now left). lia. }
  inversion HP as [s0 E|? s0 l0 NE E HI HP']; subst.
  - rewrite N.eqb_refl in HN1. destruct n as [|n]; [cbn in HF; lia|]. cbn [assign_n]. unfold iter_next. now rewrite HN1.
  - rewrite EA in E. injection E as <-. replace (j =? it_last it) with false in HN1 by lia. rewrite LN in HN1.
    assert (~ In j l') as HNI. { intro HX. apply path_ge in HP'. rewrite Forall_forall in HP'. apply HP' in HX. lia. }
    apply (IH (i + len (sh_rows s)) d2 it1 (put A j (revise f i s)) (sh_next s) l'); try easy; [lia|rewrite HL1; now apply path_put|cbn [length] in HF; lia|now rewrite put_rows|now rewrite put_rows|]. intro HX. apply HIN. now right.
Qed.
Lemma assign_all_calm b k f G P d A io0 ps m sg : 1 <= m -> stores b d G A -> act_ok b (db_header d) G P A (AAssignAll k f) -> ~ In m (P k) -> calm b io0 ps m sg d -> calm b io0 ps m sg (fst (assign_all b k f d)).
Proof.
  intros Hm HS (i & t & HT & HP & HG & HK & HM) HIN HC. assert (1 <= tb_first t) as H1.
  { assert (exists s', A (tb_first t) = Some s') as [s' E'] by (inversion HP; subst; eauto). destruct (proj2 (proj2 HS) _ _ E') as (p & [X _] & _). exact X. }
  unfold assign_all, iter_pages. rewrite HT. apply (assign_n_calm b k f G io0 ps m sg Hm _ 0 d (iter_of d t) A (tb_first t) (P k)); try easy; try apply iter_of_live.
  assert (forall i s, A i = Some s -> i <= len (db_pages d)) as HB.
  { intros j s E. destruct (proj2 (proj2 HS) _ _ E) as (p & HX & _). apply page_of_range in HX. lia. }
  pose proof (path_length A _ _ _ _ HP HB) as HX. unfold len in HX. lia.
Qed.
Lemma does_calm b io0 i l d a d' G P A : let ps := dh_page_size (db_header d) in 1 <= i -> segs_in io0 l -> stores b d G A -> act_ok b (db_header d) G P A a -> does b d a d' ->
  ~ In i (act_alters P a) -> (In i (act_asks P a) -> ready b (db_kind d) io0 ps i l) -> calm b io0 ps i l d -> calm b io0 ps i l d'.
Proof.
  intros ps H1 HI HS HA HD HN HRD HC.
  assert (forall j s, A j = Some s -> 1 <= j /\ j < 2 ^ 32 /\ ps < 2 ^ 32) as HR.
  { intros j s E. destruct (proj2 (proj2 HS) j s E) as (q & HPO & _). pose proof (DbFacts.page_of_range b d j q HPO) as HX. destruct HS as ((_ & S1 & _ & S3 & _) & _). destruct S1 as (X1 & _ & X3 & _). unfold is_u32 in *. fold ps in X1. lia. }
  destruct HD as [j ops d1 p p' HL HX|j f d1 p HL|k f d1 HL|j m d1 p p' HL HX|d1 HF]; cbn [act_ok act_alters act_asks] in *.
  - destruct HA as (s & E & _). cbn [fst] in E. destruct (HR j s E) as (R1 & R2 & R3). destruct ops as [|op ops].
    + cbn [run] in HX. injection HX as <-. destruct (N.eq_dec j i) as [->|NE]; [|now apply (put_calm b io0 ps i l d j d1 p)].
      apply (look_calm b io0 i l d d1 p); try easy; [destruct HS as ((S0 & _) & _); exact S0|apply HRD; now left].
    + assert (j <> i) by (intros ->; apply HN; now left). now apply (put_calm b io0 ps i l d j d1 p).
  - destruct HA as (s & E & _). destruct (HR j s E) as (R1 & _). assert (j <> i) by (intros ->; apply HN; now left). now apply (put_calm b io0 ps i l d j d1 p).
  - pose proof (assign_all_calm b k f G P d A io0 ps i l H1 HS HA HN HC) as HX. now rewrite HL in HX.
  - destruct HA as [[s E] _]. destruct (HR j s E) as (R1 & _). assert (j <> i) by (intros ->; apply HN; now left). now apply (put_calm b io0 ps i l d j d1 p).
  - apply (flush_calm b io0 i l d d1); try easy. now destruct HS.
Qed.
Lemma acts_calm b io0 i l : 1 <= i -> segs_in io0 l -> forall d as' d', acts b d as' d' -> forall G P A, let ps := dh_page_size (db_header d) in stores b d G A -> acts_ok b (db_header d) G P A as' ->
  ~ In i (flat_map (act_alters P) as') -> (In i (flat_map (act_asks P) as') -> ready b (db_kind d) io0 ps i l) -> calm b io0 ps i l d -> calm b io0 ps i l d'.
Proof.
  intros H1 HI d as' d' H. induction H as [d|d a d1 as' d2 HD _ IH]; intros G P A ps HS HA HN HR HC; [easy|]. cbn [acts_ok] in HA. destruct HA as [A1 A2]. cbn [flat_map] in HN, HR. rewrite in_app_iff in HN, HR.
  destruct (does_stores b d a d1 G P A HS A1 HD) as (S1 & S2 & S3). assert (dh_page_size (db_header d1) = ps) as EP by (now rewrite S2). rewrite <- EP. apply (IH G P (act_work P A a) S1); [now rewrite S2|tauto|rewrite EP, S3; tauto|].
  rewrite EP. apply (does_calm b io0 i l d a d1 G P A); try easy; [tauto|tauto].
Qed.
Lemma performs_calm b io0 i l d a d' G st : let ps := dh_page_size (db_header d) in 1 <= i -> segs_in io0 l -> stores b d G (snd st) -> db_header d = fst st -> task_ok b (db_kind d) G st a -> performs b d a d' ->
  ~ In i (task_alters a) -> (In i (task_asks a) -> ready b (db_kind d) io0 ps i l) -> calm b io0 ps i l d -> calm b io0 ps i l d'.
Proof.
  intros ps H1 HI HS HH HA HD HN HR HC. destruct HD as [P as' d1 HL|j n t d1 p HL|f]; cbn [task_ok task_alters task_asks] in *.
  - rewrite <- HH in HA. now apply (acts_calm b io0 i l H1 HI d as' d1 HL G P (snd st)).
  - destruct HA as (s & E & _). destruct (proj2 (proj2 HS) j s E) as (q & [HJ _] & _). assert (j <> i) by (intros ->; apply HN; now left). now apply (put_calm b io0 ps i l d j d1 p).
  - destruct HC as [HB HP]. split; [exact HB|exact HP].
Qed.
Lemma tasks_calm b io0 i l : 1 <= i -> segs_in io0 l -> forall d ts d', tasks b d ts d' -> forall G st, let ps := dh_page_size (db_header d) in stores b d G (snd st) -> db_header d = fst st -> tasks_ok b (db_kind d) G st ts ->
  ~ In i (altered ts) -> (In i (asked ts) -> ready b (db_kind d) io0 ps i l) -> calm b io0 ps i l d -> calm b io0 ps i l d'.
Proof.
  intros H1 HI d ts d' H. induction H as [d|d a d1 ts d2 HD _ IH]; intros G st ps HS HH HA HN HR HC; [easy|]. cbn [tasks_ok] in HA. destruct HA as [A1 A2]. unfold altered, asked in HN, HR. cbn [flat_map] in HN, HR. rewrite in_app_iff in HN, HR.
  destruct (performs_stores b d a d1 G st HS HH A1 HD) as (S1 & S2 & S3). assert (dh_page_size (db_header d1) = ps) as EP.
  { rewrite S2. destruct a as [P as'|j n t|f]; cbn [task_work fst task_ok] in *; [now rewrite <- HH|now rewrite <- HH|]. destruct A1 as (_ & A1 & _). rewrite A1, <- HH. reflexivity. }
  rewrite <- EP. apply (IH G (task_work st a) S1 S2); [now rewrite S3|unfold altered; tauto|rewrite EP, S3; unfold asked; tauto|].
  rewrite EP. apply (performs_calm b io0 i l d a d1 G st); try easy; [tauto|tauto].
Qed.

Lemma task_next b k G st a : task_ok b k G st a -> dh_next (fst (task_work st a)) = dh_next (fst st) /\ dh_page_size (fst (task_work st a)) = dh_page_size (fst st).
Proof. destruct a as [P as'|j n t|f]; cbn [task_work fst task_ok]; [easy|easy|]. intros (_ & H1 & H2 & _). now split. Qed.
Lemma tasks_next b k G : forall l st, tasks_ok b k G st l -> dh_next (fst (tasks_work st l)) = dh_next (fst st) /\ dh_page_size (fst (tasks_work st l)) = dh_page_size (fst st).
Proof.
  induction l as [|a l IH]; intros st H; [easy|]. cbn [tasks_ok] in H. destruct H as [H1 H2]. change (tasks_work st (a :: l)) with (tasks_work (task_work st a) l). destruct (IH _ H2) as [-> ->]. now apply (task_next b k G).
Qed.
Lemma open_none io k d : db_open io k = DOk d -> db_io d = io /\ forall j q, getN (db_pages d) j <> Some (Some q).
Proof.
  unfold db_open. destruct (rd_dbhdr k io 0) as [[h q]| |]; try easy. intros [= <-]. split; [easy|]. cbn [db_pages]. intros j p HJ.
  assert (In (Some p) (repeat None (N.to_nat (dh_next h - 1)))) as X by (apply in_getN; now exists j). now apply repeat_spec in X.
Qed.
Lemma jobs_calm b k io0 i l : 1 <= i -> segs_in io0 l -> forall io ls io', jobs b k io ls io' -> forall d G st, db_open io k = DOk d -> stores b d G (snd st) -> db_header d = fst st -> tasks_ok b k G st (concat ls) ->
  let ps := dh_page_size (db_header d) in ~ In i (altered (concat ls)) -> (In i (asked (concat ls)) -> ready b k io0 ps i l) ->
  (forall x, i * ps <= x -> x < (i + 1) * ps -> x < len io0 -> getN io x = getN io0 x) -> forall x, i * ps <= x -> x < (i + 1) * ps -> x < len io0 -> getN io' x = getN io0 x.
Proof.
  intros H1 HI io ls io' H. induction H as [io|io ts io1 ls io2 HS1 _ IH]; intros d G st HO HS HH HA ps HN HR HX; [exact HX|]. cbn [concat] in HA, HN, HR. apply tasks_ok_app in HA as [A1 A2].
  unfold altered, asked in HN, HR. rewrite flat_map_app, in_app_iff in HN, HR. pose proof (open_kind io k d HO) as HK. pose proof (open_none io k d HO) as [EIO HNONE].
  destruct (job_stores b k io ts io1 d G st HO HS HH A1 HS1) as (d1 & O1 & O2 & O3).
  assert (dh_page_size (db_header d1) = ps) as EP by (rewrite O2; destruct (tasks_next b k G ts st A1) as [_ ->]; now rewrite <- HH).
  assert (calm b io0 ps i l d) as HC. { split; [now rewrite EIO|]. intros q HQ. now apply HNONE in HQ. }
  destruct HS1 as (d0 & d2 & d3 & E0 & HE & HF & <-). rewrite HO in E0. injection E0 as <-. rewrite <- HK in A1.
  assert (calm b io0 ps i l d2) as HC2. { apply (tasks_calm b io0 i l H1 HI d ts d2 HE G st); try easy; [unfold altered; tauto|rewrite HK; unfold asked; tauto]. }
  destruct (tasks_stores b d ts d2 HE G st HS HH A1) as (S1 & S2 & S3). assert (dh_page_size (db_header d2) = ps) as EP2 by (rewrite S2; destruct (tasks_next b (db_kind d) G ts st A1) as [_ ->]; now rewrite <- HH).
  pose proof (flush_calm b io0 i l d2 d3 H1 (proj1 S1) HI HF) as HC3. cbv zeta in HC3. rewrite EP2 in HC3. destruct (HC3 HC2) as [HB _].
  specialize (IH d1 G (tasks_work st ts) O1 O3 O2 A2). cbv zeta in IH. rewrite EP in IH. apply IH; [unfold altered; tauto|unfold asked; tauto|exact HB].
Qed.
Lemma load_entry_io b d pos j : db_io (fst (load_entry b d pos j)) = db_io d.
Proof. unfold load_entry. destruct (getN (db_pages d) pos) as [[q|]|]; try easy. now destruct (read_page b d j). Qed.
Lemma iter_next_io b d it : db_io (fst (fst (iter_next b d it))) = db_io d.
Proof.
  unfold iter_next. repeat match goal with |- context [match ?e with _ => _ end] => lazymatch e with load_entry _ _ ?p ?j => let H := fresh in pose proof (load_entry_io b d p j) as H; destruct e; cbn [fst] in * | _ => destruct e end end; cbn [fst] in *; easy.
Qed.
Lemma does_upto b d a d' G A : stores b d G A -> does b d a d' -> len (db_io d) <= len (db_io d') <= N.max (len (db_io d)) (N.max 1 (dh_next (db_header d)) * dh_page_size (db_header d)).
Proof.
  intros HS HD. assert (forall d' : database, db_io d' = db_io d -> len (db_io d) <= len (db_io d') <= N.max (len (db_io d)) (N.max 1 (dh_next (db_header d)) * dh_page_size (db_header d))) as HX by (intros x ->; lia).
  assert (forall j d1 p, load_page b d j = (d1, DOk p) -> db_io d1 = db_io d) as HL.
  { intros j d1 p H. unfold load_page in H. destruct (wsub b 64 j 1) as [pos| |]; try easy. destruct (pos <? len (db_pages d)); [|easy]. unfold load_entry in H.
    destruct (getN (db_pages d) pos) as [[q|]|]; try easy; [now injection H as <- <-|]. destruct (read_page b d j); try easy. now injection H as <- <-. }
  destruct HD as [j ops d1 p p' H HR|j f d1 p H|k f d1 H|j i d1 p p' H HR|d1 HF]; try (apply HX; exact (HL _ _ _ H)).
  - apply HX. assert (forall n i d it, db_io (fst (assign_n b k f n i d it)) = db_io d) as HN.
    { induction n as [|n IH]; intros i d0 it; [easy|]. cbn [assign_n]. pose proof (iter_next_io b d0 it) as HI. destruct (iter_next b d0 it) as [[d2 it2] r]. cbn [fst] in HI. destruct r as [[[j p]|]| |]; cbn [fst]; try exact HI.
      destruct (forallb (is_variant k) (rows_of_page p)); [|exact HI]. rewrite IH. exact HI. }
    unfold assign_all in H. destruct (iter_pages d (PT k)) as [it| |]; try easy. specialize (HN (S (S (length (db_pages d)))) 0 d it). now rewrite H in HN.
  - apply (flush_upto b d d1); [now destruct HS|exact HF].
Qed.
Lemma acts_upto b : forall d as' d', acts b d as' d' -> forall G P A, stores b d G A -> acts_ok b (db_header d) G P A as' ->
  len (db_io d) <= len (db_io d') <= N.max (len (db_io d)) (N.max 1 (dh_next (db_header d)) * dh_page_size (db_header d)).
Proof.
  intros d as' d' H. induction H as [d|d a d1 as' d2 HD _ IH]; intros G P A HS HA; [lia|]. cbn [acts_ok] in HA. destruct HA as [A1 A2].
  destruct (does_stores b d a d1 G P A HS A1 HD) as (S1 & S2 & S3). pose proof (does_upto b d a d1 G A HS HD) as X. specialize (IH G P (act_work P A a) S1). rewrite S2 in IH. specialize (IH A2). lia.
Qed.
Lemma tasks_upto b : forall d ts d', tasks b d ts d' -> forall G st, stores b d G (snd st) -> db_header d = fst st -> tasks_ok b (db_kind d) G st ts ->
  len (db_io d) <= len (db_io d') <= N.max (len (db_io d)) (N.max 1 (dh_next (db_header d)) * dh_page_size (db_header d)).
Proof.
  intros d ts d' H. induction H as [d|d a d1 ts d2 HD _ IH]; intros G st HS HH HA; [lia|]. cbn [tasks_ok] in HA. destruct HA as [A1 A2].
  destruct (performs_stores b d a d1 G st HS HH A1 HD) as (S1 & S2 & S3). specialize (IH G (task_work st a) S1 S2). rewrite S3 in IH. specialize (IH A2). destruct (task_next b (db_kind d) G st a A1) as [N1 N2]. rewrite <- S2, <- HH in N1, N2. rewrite N1, N2 in IH.
  assert (len (db_io d) <= len (db_io d1) <= N.max (len (db_io d)) (N.max 1 (dh_next (db_header d)) * dh_page_size (db_header d))) as X; [|lia].
  clear IH N1 N2 S1 S2 S3 A2. destruct HD as [P as' d1 HL|j n t d1 p HL|f]; cbn [task_ok] in A1.
  - rewrite <- HH in A1. now apply (acts_upto b d as' d1 HL G P (snd st)).
  - pose proof (does_upto b d (AInsert j []) (set_page d1 j p) G (snd st) HS (does_insert b d j [] d1 p p HL eq_refl)) as X. exact X.
  - cbn [with_header db_io]. lia.
Qed.
Lemma jobs_upto b k : forall io ls io', jobs b k io ls io' -> forall d G st, db_open io k = DOk d -> stores b d G (snd st) -> db_header d = fst st -> tasks_ok b k G st (concat ls) ->
  len io <= len io' <= N.max (len io) (N.max 1 (dh_next (db_header d)) * dh_page_size (db_header d)).
Proof.
  intros io ls io' H. induction H as [io|io ts io1 ls io2 HS1 _ IH]; intros d G st HO HS HH HA; [lia|]. cbn [concat] in HA. apply tasks_ok_app in HA as [A1 A2].
  pose proof (open_kind io k d HO) as HK. pose proof (open_none io k d HO) as [EIO _]. destruct (job_stores b k io ts io1 d G st HO HS HH A1 HS1) as (d1 & O1 & O2 & O3).
  specialize (IH d1 G (tasks_work st ts) O1 O3 O2 A2). destruct (tasks_next b k G ts st A1) as [N1 N2]. rewrite <- O2, <- HH in N1, N2. rewrite N1, N2 in IH.
  destruct HS1 as (d0 & d2 & d3 & E0 & HE & HF & <-). rewrite HO in E0. injection E0 as <-. rewrite <- HK in A1. pose proof (tasks_upto b d ts d2 HE G st HS HH A1) as X. rewrite EIO in X.
  destruct (tasks_stores b d ts d2 HE G st HS HH A1) as (S1 & S2 & S3). pose proof (flush_upto b d2 d3 (proj1 S1) HF) as Y. rewrite S2 in Y. destruct (tasks_next b (db_kind d) G ts st A1) as [M1 M2]. rewrite M1, M2, <- HH in Y. lia.
Qed.

(** ** The length of the file *)
Lemma steady_nil b ps pos q : ~ steady b ps pos [] q.
Proof.
  intros [HP _]. unfold page_pieces in HP. destruct (pg_content q) as [c|c]; [|destruct HP as (hb & ib & _ & _ & _ & E); discriminate]. destruct HP as [r HE]. unfold dpage_segs in HE.
  destruct (hdr_bytes b (pg_header q) c); [|easy|easy]. cbn [res_bind] in HE. destruct (rows_segs b (pos + 40) (dc_rows c)) as [[l r']| |]; try easy.
Qed.
(** The file has [L] bytes, and all pages in memory lie in it. *)
Definition held (ps L : N) (d : database) : Prop := len (db_io d) = L /\ forall k q, getN (db_pages d) k = Some (Some q) -> (k + 2) * ps <= L.
Lemma flush_held b L d d' : let ps := dh_page_size (db_header d) in savable b d -> ps <= L -> flush b d = DOk d' -> held ps L d -> held ps L d'.
Proof.
  intros ps HS HP HF [HL HQ]. pose proof (savable_inside b d HS) as HIN. destruct HS as (_ & _ & S2 & _). pose proof (flush_len b d d' S2 HIN HF) as HX. fold ps in HX. rewrite HL in HX.
  apply flush_pieces in HF as (_ & _ & D3 & _); try easy. split; [now apply HX|]. rewrite D3. exact HQ.
Qed.
Lemma put_held b ps L d j d1 p p' : 1 <= j -> (j + 1) * ps <= L -> load_page b d j = (d1, DOk p) -> held ps L d -> held ps L (set_page d1 j p').
Proof.
  intros H1 HJ HL [HN HQ]. apply load_effect in HL as [(D1 & D2 & D3 & D4 & D5) _]; [|easy]. assert (in_memory d1 j p) as HM by (split; [easy|]; rewrite D5, N.eqb_refl; easy).
  split; [change (db_io (set_page d1 j p')) with (db_io d1); now rewrite D1|]. intros k q. rewrite (getN_set_page d1 j p p' k) by easy. destruct (k =? j - 1) eqn:E; [intros _; replace (k + 2) with (j + 1) by lia; exact HJ|]. rewrite D5, E. apply HQ.
Qed.
Lemma does_held b L d a d' G P A : let ps := dh_page_size (db_header d) in stores b d G A -> act_ok b (db_header d) G P A a -> does b d a d' -> ps <= L ->
  (forall i, In i (act_asks P a) -> (i + 1) * ps <= L) -> held ps L d -> held ps L d'.
Proof.
  intros ps HS HA HD HP HI HH. assert (forall j s, A j = Some s -> 1 <= j) as HR by (intros j s E; destruct (proj2 (proj2 HS) j s E) as (q & [HX _] & _); exact HX).
  destruct HD as [j ops d1 p p' HL HX|j f d1 p HL|k f d1 HL|j m d1 p p' HL HX|d1 HF]; cbn [act_ok act_asks] in *.
  - destruct HA as (s & E & _). cbn [fst] in E. apply (put_held b ps L d j d1 p); try easy; [now apply (HR j s)|apply HI; now left].
  - destruct HA as (s & E & _). apply (put_held b ps L d j d1 p); try easy; [now apply (HR j s)|apply HI; now left].
  - assert (db_io d1 = db_io d) as EIO. 
    { assert (forall n i d it, db_io (fst (assign_n b k f n i d it)) = db_io d) as HN.
      { induction n as [|n IH]; intros i d0 it; [easy|]. cbn [assign_n]. pose proof (iter_next_io b d0 it) as HX. destruct (iter_next b d0 it) as [[d2 it2] r]. cbn [fst] in HX. destruct r as [[[j p]|]| |]; cbn [fst]; try exact HX.
        destruct (forallb (is_variant k) (rows_of_page p)); [|exact HX]. rewrite IH. exact HX. }
      unfold assign_all in HL. destruct (iter_pages d (PT k)) as [it| |]; try easy. specialize (HN (S (S (length (db_pages d)))) 0 d it). now rewrite HL in HN. }
    destruct HH as [HN HQ]. split; [now rewrite EIO|]. intros m q HM. destruct (in_dec N.eq_dec (m + 1) (P k)) as [IN|NI]; [specialize (HI _ IN); lia|].
    destruct (getN (db_pages d) m) as [[q'|]|] eqn:EM; [now apply (HQ m q')| |]; exfalso.
    all: assert (calm b (db_io d) ps (m + 1) [] d) as HC by (split; [easy|intros x HX; rewrite N.add_sub in HX; congruence]).
    all: pose proof (assign_all_calm b k f G P d A (db_io d) ps (m + 1) [] ltac:(lia) HS HA NI HC) as [_ HZ]; rewrite HL in HZ; cbn [fst] in HZ; rewrite N.add_sub in HZ; now apply (steady_nil b ps ((m + 1) * ps) q), HZ.
  - destruct HA as [[s E] _]. apply (put_held b ps L d j d1 p); try easy; [now apply (HR j s)|apply HI; now left].
  - apply (flush_held b L d d1); try easy. now destruct HS.
Qed.
Lemma acts_held b L : forall d as' d', acts b d as' d' -> forall G P A, let ps := dh_page_size (db_header d) in stores b d G A -> acts_ok b (db_header d) G P A as' -> ps <= L ->
  (forall i, In i (flat_map (act_asks P) as') -> (i + 1) * ps <= L) -> held ps L d -> held ps L d'.
Proof.
  intros d as' d' H. induction H as [d|d a d1 as' d2 HD _ IH]; intros G P A ps HS HA HP HI HH; [easy|]. cbn [acts_ok] in HA. destruct HA as [A1 A2].
  destruct (does_stores b d a d1 G P A HS A1 HD) as (S1 & S2 & S3). assert (dh_page_size (db_header d1) = ps) as EP by (now rewrite S2). rewrite <- EP.
  apply (IH G P (act_work P A a) S1); [now rewrite S2|now rewrite EP| |rewrite EP; apply (does_held b L d a d1 G P A); try easy].
  - intros i Hi. rewrite EP. apply HI. cbn [flat_map]. rewrite in_app_iff. now right.
  - intros i Hi. apply HI. cbn [flat_map]. rewrite in_app_iff. now left.
Qed.
Lemma tasks_held b L : forall d ts d', tasks b d ts d' -> forall G st, let ps := dh_page_size (db_header d) in stores b d G (snd st) -> db_header d = fst st -> tasks_ok b (db_kind d) G st ts -> ps <= L ->
  (forall i, In i (asked ts) -> (i + 1) * ps <= L) -> held ps L d -> held ps L d'.
Proof.
  intros d ts d' H. induction H as [d|d a d1 ts d2 HD _ IH]; intros G st ps HS HH HA HP HI HL; [easy|]. cbn [tasks_ok] in HA. destruct HA as [A1 A2].
  destruct (performs_stores b d a d1 G st HS HH A1 HD) as (S1 & S2 & S3). destruct (task_next b (db_kind d) G st a A1) as [N1 N2]. rewrite <- S2, <- HH in N1, N2. fold ps in N2. rewrite <- N2.
  apply (IH G (task_work st a) S1 S2); [now rewrite S3|now rewrite N2| |rewrite N2].
  - intros i Hi. rewrite N2. apply HI. unfold asked. cbn [flat_map]. rewrite in_app_iff. now right.
  - assert (forall i, In i (task_asks a) -> (i + 1) * ps <= L) as HI' by (intros i Hi; apply HI; unfold asked; cbn [flat_map]; rewrite in_app_iff; now left). clear IH HI S1 S2 S3 N1 N2.
    destruct HD as [P as' d1 HX|j n t d1 p HX|f]; cbn [task_ok task_asks] in *; [| |exact HL].
    + rewrite <- HH in A1. now apply (acts_held b L d as' d1 HX G P (snd st)).
    + destruct A1 as (s & E & _). destruct (proj2 (proj2 HS) j s E) as (q & [HJ _] & _). apply (put_held b ps L d j d1 p); try easy. apply HI'. now left.
Qed.
Lemma jobs_held b k L : forall io ls io', jobs b k io ls io' -> forall d G st, let ps := dh_page_size (db_header d) in db_open io k = DOk d -> stores b d G (snd st) -> db_header d = fst st -> tasks_ok b k G st (concat ls) -> ps <= L ->
  (forall i, In i (asked (concat ls)) -> (i + 1) * ps <= L) -> len io = L -> len io' = L.
Proof.
  intros io ls io' H. induction H as [io|io ts io1 ls io2 HS1 _ IH]; intros d G st ps HO HS HH HA HP HI HL; [easy|]. cbn [concat] in HA, HI. apply tasks_ok_app in HA as [A1 A2].
  pose proof (open_kind io k d HO) as HK. pose proof (open_none io k d HO) as [EIO HNONE]. destruct (job_stores b k io ts io1 d G st HO HS HH A1 HS1) as (d1 & O1 & O2 & O3).
  destruct (tasks_next b k G ts st A1) as [_ N2]. rewrite <- O2, <- HH in N2. fold ps in N2.
  destruct HS1 as (d0 & d2 & d3 & E0 & HE & HF & <-). rewrite HO in E0. injection E0 as <-. rewrite <- HK in A1. destruct (tasks_stores b d ts d2 HE G st HS HH A1) as (S1 & S2 & S3).
  assert (dh_page_size (db_header d2) = ps) as EP2 by (rewrite S2; destruct (tasks_next b (db_kind d) G ts st A1) as [_ ->]; now rewrite <- HH).
  assert (held ps L d) as H0. { split; [now rewrite EIO|]. intros j q HQ. now apply HNONE in HQ. }
  assert (held ps L d2) as H2. { apply (tasks_held b L d ts d2 HE G st); try easy. intros i Hi. apply HI. unfold asked in *. rewrite flat_map_app, in_app_iff. now left. }
  assert (held ps L d3) as [H3 _]. { rewrite <- EP2. apply (flush_held b L d2 d3); try easy; [now destruct S1|now rewrite EP2|now rewrite EP2]. }
  apply (IH d1 G (tasks_work st ts)); try easy; [now rewrite N2|]. intros i Hi. rewrite N2. apply HI. unfold asked in *. rewrite flat_map_app, in_app_iff. now right.
Qed.
