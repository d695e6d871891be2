(** * Changing pages in memory, saving, and opening again: what the row iterator shows *)
From Coq Require Import NArith ZArith List Bool Lia.
From Coq Require Import ZifyBool ZifyNat ZifyN.
From Verif Require Import Base BaseFacts Segs Str StrFacts StrGood Schema SchemaFacts Oa OaFacts Rows RowFacts RowSpec Page BitFacts PageFacts PageRw PageSpec Alloc AllocFacts AllocSpec Db DbFacts DbFlush Reread Progress.
Import ListNotations.
Open Scope N_scope.

(** ** Spec *)
(** Two rows of the same type with the same numbers and texts.  The offsets of the texts in the file may differ. *)
Definition same_values (r r' : row) : Prop :=
  match r, r' with
  | RRow k vs oc, RRow k' vs' oc' => k' = k /\ vs' = vs /\ option_map oa_items oc' = option_map oa_items oc
  | RUnknown, RUnknown => True
  | _, _ => False
  end.
(** The same header, and the same entries or the same rows at the same places. *)
Definition page_kept (p q : page) : Prop :=
  pg_header q = pg_header p /\
  match pg_content p, pg_content q with
  | PData c, PData c' => dc_header c' = dc_header c /\ Forall2 (fun x y => fst y = fst x /\ same_values (snd x) (snd y)) (dc_rows c) (dc_rows c')
  | PIndex c, PIndex c' => c' = c
  | _, _ => False
  end.
(** A database that can be saved: the header is valid and fits in a page, and the pages in memory are consistent; the file consists of bytes. *)
Definition savable (b : build) (d : database) : Prop :=
  bytes_ok (db_io d) /\ dbhdr_ok (db_kind d) (db_header d) /\ 28 + 16 * len (dh_tables (db_header d)) <= dh_page_size (db_header d) /\ len (db_pages d) = dh_next (db_header d) - 1 /\
  forall k p, getN (db_pages d) k = Some (Some p) -> page_consistent b (db_kind d) (dh_page_size (db_header d)) p.
(** What may be done with a page: nothing is known; it can be written back; rows may be inserted as well. *)
Inductive grade := GAny | GSound | GGrow.
Definition graded (b : build) (db : dbtype) (ps : N) (g : grade) (p : page) : Prop :=
  match g with GAny => True | GSound => page_consistent b db ps p /\ page_writes b ps p | GGrow => can_grow b db ps p /\ page_writes b ps p end.
(** Page [i] is not in memory; whatever the rest of the file contains, [p] is read for it, up to the offsets of texts. *)
Definition self_contained (b : build) (d : database) (g : grade) (i : N) (p : page) : Prop :=
  let ps := dh_page_size (db_header d) in
  1 <= i /\ getN (db_pages d) (i - 1) = Some None /\
  forall io, bytes_ok io -> (forall x, i * ps <= x -> x < (i + 1) * ps -> x < len (db_io d) -> getN io x = getN (db_io d) x) ->
    exists p2 q, rd_page b (rd_dstr b) ps (db_kind d) io (i * ps) = Ok (p2, q) /\ page_kept p p2 /\ graded b (db_kind d) ps g p2.
Definition in_memory (d : database) (i : N) (p : page) : Prop := 1 <= i /\ getN (db_pages d) (i - 1) = Some (Some p).
(** Page [i] is kept when the database is saved. *)
Definition kept_page (b : build) (d : database) (g : grade) (i : N) (p : page) : Prop :=
  (in_memory d i p /\ graded b (db_kind d) (dh_page_size (db_header d)) g p) \/ self_contained b d g i p.
Definition set_page (d : database) (i : N) (p : page) : database := with_pages d (set_nth (N.to_nat (i - 1)) (Some p) (db_pages d)).

Lemma same_values_refl r : same_values r r.
Proof. now destruct r. Qed.
Lemma explicit_same b r r' : made_explicit b r r' -> same_values r r'.
Proof.
  destruct r as [k vs [c|]|]; cbn [made_explicit].
  - intros (o & -> & _). cbn. easy.
  - intros ->. easy.
  - intros ->. easy.
Qed.
Lemma page_kept_refl p : page_kept p p.
Proof.
  unfold page_kept. split; [easy|]. destruct (pg_content p) as [c|c]; [|easy]. split; [easy|]. induction (dc_rows c); constructor; [|easy]. split; [easy|apply same_values_refl].
Qed.
Lemma same_values_sym r r' : same_values r r' -> same_values r' r.
Proof. destruct r, r'; cbn; easy. Qed.
Lemma same_values_trans r r' r2 : same_values r r' -> same_values r' r2 -> same_values r r2.
Proof. destruct r, r', r2; cbn; try easy. intros (-> & -> & E) (-> & -> & E2). split; [easy|]. split; [easy|]. congruence. Qed.
Lemma Forall2_flip {A B} (P : A -> B -> Prop) l l' : Forall2 P l l' -> Forall2 (fun x y => P y x) l' l.
Proof. intro H. induction H; now constructor. Qed.
Lemma Forall2_comp {A} (P : A -> A -> Prop) : (forall x y z, P x y -> P y z -> P x z) -> forall l l' l2, Forall2 P l l' -> Forall2 P l' l2 -> Forall2 P l l2.
Proof.
  intros HT l l' l2 H. revert l2. induction H as [|x y l l' H1 H2 IH]; intros l2 H; inversion H; subst; constructor; [eapply HT; eassumption|now apply IH].
Qed.
Lemma page_kept_sym p q : page_kept p q -> page_kept q p.
Proof.
  unfold page_kept. intros [H1 H2]. split; [easy|]. destruct (pg_content p), (pg_content q); try easy. destruct H2 as [H2 H3]. split; [easy|].
  apply Forall2_flip in H3. eapply Forall2_imp; [|exact H3]. cbv beta. intros x y [E1 E2]. split; [easy|now apply same_values_sym].
Qed.
Lemma page_kept_trans p q r : page_kept p q -> page_kept q r -> page_kept p r.
Proof.
  unfold page_kept. intros [H1 H2] [G1 G2]. split; [congruence|]. destruct (pg_content p), (pg_content q), (pg_content r); try easy; [|congruence].
  destruct H2 as [H2 H3], G2 as [G2 G3]. split; [congruence|]. eapply Forall2_comp; [|exact H3|exact G3]. cbv beta.
  intros x y z [E1 E2] [F1 F2]. split; [congruence|now apply (same_values_trans _ (snd y))].
Qed.
Lemma reads_kept b p q : page_reads_as b p q -> page_kept p q.
Proof.
  unfold page_reads_as, page_kept. destruct p as [h [c|c]]; cbn [pg_content pg_header].
  - intros (gs & rows & -> & HR & _). cbn. split; [easy|]. split; [easy|]. eapply Forall2_imp; [|exact HR]. cbv beta. intros x y [H1 H2]. split; [easy|]. now apply explicit_same in H2.
  - intros ->. now cbn.
Qed.
Lemma kept_rows p q : page_kept p q -> Forall2 same_values (rows_of_page p) (rows_of_page q).
Proof.
  intros [_ H]. unfold rows_of_page. destruct (pg_content p), (pg_content q); try easy; try constructor. destruct H as [_ H]. induction H as [|x y l l' [_ H] _ IH]; constructor; easy.
Qed.
Lemma savable_inside b d : savable b d -> all_inside b d.
Proof. intros (_ & _ & _ & _ & H) k p HK. apply consistent_inside. now apply (H k). Qed.
Lemma flush_bytes b d d' : savable b d -> flush b d = DOk d' -> bytes_ok (db_io d').
Proof.
  intros HS HF. pose proof (savable_inside b d HS) as HI. destruct HS as (HB & S1 & S2 & S3 & S4).
  apply flush_pieces in HF as (_ & _ & _ & ls & HLS & -> & HP); try easy. cbv zeta in HP. apply bytes_ok_write_segs; [easy|]. constructor.
  - cbn [snd]. unfold header_page. apply bytes_ok_app. split; [|apply bytes_ok_zeros]. unfold dbhdr_enc. repeat (apply bytes_ok_app; split; [apply le_enc_ok|]).
    clear. induction (dh_tables (db_header d)) as [|t ts IH]; [constructor|]. cbn [flat_map]. apply bytes_ok_app. split; [|easy]. unfold table_enc.
    repeat (apply bytes_ok_app; split; [apply le_enc_ok|]). apply le_enc_ok.
  - apply Forall_forall. intros s HIN. apply in_concat in HIN as (l & HIN & HL). apply in_getN in HIN as (k & HK). apply HP in HK as [_ HK].
    destruct (getN (db_pages d) k) as [[p|]|] eqn:E; [|now subst l|now subst l]. apply (pieces_bytes b (db_kind d)) in HK; [|now apply (S4 k)].
    rewrite Forall_forall in HK. now apply HK.
Qed.

(** ** Saving and opening again *)
Lemma segs_in_frame io io' lo hi l : segs_in io l -> segs_within lo hi l -> Forall (fun s => snd s <> []) l ->
  (forall x, lo <= x -> x < hi -> x < len io -> getN io' x = getN io x) -> segs_in io' l.
Proof.
  intros HS HW HN HF. unfold segs_in, segs_within in *. rewrite Forall_forall in *. intros s HI. pose proof (HS s HI) as H. pose proof (HW s HI) as W. pose proof (HN s HI) as NE. cbv beta in H, W, NE. unfold seg_end in W.
  pose proof (has_len _ _ _ H) as HL. apply has_get in H as [H1 H2]. assert (forall i, i < len (snd s) -> getN io' (fst s + i) = getN (snd s) i) as HG.
  { intros i Hi. rewrite <- H2 by easy. apply HF; lia. }
  apply has_get. split; [|exact HG]. destruct (snd s) as [|y bs] eqn:E; [easy|]. assert (getN io' (fst s + 0) = Some y) as HY by (rewrite HG; [easy|rewrite len_cons; lia]).
  apply getN_Some_lt in HY. lia.
Qed.
Lemma reopen_page b d d' : savable b d -> flush b d = DOk d' -> exists d2, db_open (db_io d') (db_kind d) = DOk d2 /\ db_header d2 = db_header d /\ db_kind d2 = db_kind d /\ savable b d2 /\
  forall g i p, kept_page b d g i p -> exists q, page_of b d2 i q /\ page_kept p q /\ self_contained b d2 g i q /\ graded b (db_kind d) (dh_page_size (db_header d)) g q.
Proof.
  intros HS HF. pose proof (savable_inside b d HS) as HI. pose proof (flush_bytes b d d' HS HF) as HBY. destruct HS as (S0 & S1 & S2 & S3 & S4).
  destruct (flush_reopen b d d' S1 S2 S3 HI HF) as (d2 & O1 & O2 & O3 & _). exists d2. split; [easy|]. split; [easy|].
  pose proof O1 as HO. unfold db_open in HO. destruct (rd_dbhdr (db_kind d) (db_io d') 0) as [[h q0]| |]; try easy.
  assert (db_io d2 = db_io d' /\ db_kind d2 = db_kind d /\ db_pages d2 = repeat None (N.to_nat (dh_next (db_header d) - 1))) as (D1 & D2 & D3).
  { injection HO as <-. cbn in O2 |- *. now rewrite O2. } clear HO. split; [easy|].
  assert (forall k, k < len (db_pages d) -> getN (db_pages d2) k = Some None) as HNone.
  { intros k Hk. destruct (getN_lt_Some (db_pages d2) k) as [x E]; [lia|]. rewrite E. f_equal.
    assert (In x (db_pages d2)) as X by (apply in_getN; now exists k). rewrite D3 in X. now apply repeat_spec in X. }
  split.
  { split; [now rewrite D1|]. split; [now rewrite D2, O2|]. rewrite O2. split; [easy|]. split; [lia|]. intros k p HK. pose proof (getN_Some_lt _ _ _ HK). rewrite HNone in HK by lia. easy. }
  intros g i p HX. assert (1 <= i /\ i - 1 < len (db_pages d)) as [HI1 HI2].
  { destruct HX as [[[H1 H2] _]|(H1 & H2 & _)]; apply getN_Some_lt in H2; easy. }
  assert (forall io, bytes_ok io -> (forall x, i * dh_page_size (db_header d) <= x -> x < (i + 1) * dh_page_size (db_header d) -> x < len (db_io d') -> getN io x = getN (db_io d') x) ->
    exists p2 q, rd_page b (rd_dstr b) (dh_page_size (db_header d)) (db_kind d) io (i * dh_page_size (db_header d)) = Ok (p2, q) /\ page_kept p p2 /\
      graded b (db_kind d) (dh_page_size (db_header d)) g p2) as HR.
  { set (ps := dh_page_size (db_header d)) in *. intros io HBI HIO. destruct HX as [[[_ HM] HG]|(_ & HU & HR)].
    - destruct (flush_segs_in b d d' (i - 1) p S2 HI HF HM) as (l & HP & HW & HS). fold ps in HP, HW. rewrite N.sub_add in HP, HW by easy. replace (i - 1 + 2) with (i + 1) in HW by lia.
      pose proof (S4 _ _ HM) as HC. fold ps in HC. destruct (consistent_pieces _ _ _ _ _ _ HC HP) as [HD HNE].
      assert (segs_in io l) as HSI by (apply (segs_in_frame (db_io d') io (i * ps) ((i + 1) * ps)); [now apply HS|easy|easy|easy]).
      destruct (reread_page b (db_kind d) ps (i * ps) p l io HC HP HBI HSI) as (q & z & R & Q1 & Q2 & Q3).
      exists q, z. split; [easy|]. split; [now apply reads_kept in Q1|]. fold ps in HG. pose proof (fun W => reread_writes b (db_kind d) ps (i * ps) p l io q z HC HP HSI W R) as HWR. destruct g; [easy| |]; (destruct HG as [HG1 HG2]; split; [|now apply HWR]); [easy|now apply Q3].
    - apply HR; [easy|]. fold ps. intros x X1 X2 X3. assert (getN (db_io d') x = getN (db_io d) x) as E.
      { apply (flush_frame b d d'); try easy. unfold unloaded_byte. fold ps. split; [nia|]. assert (x / ps = i) as ->; [|congruence].
        symmetry. apply (N.div_unique x ps i (x - i * ps)); nia. }
      rewrite HIO; [easy|easy|easy|]. destruct (getN_lt_Some (db_io d) x X3) as [y EY]. rewrite EY in E. now apply getN_Some_lt in E. }
  destruct (HR (db_io d')) as (q & z & R & Q & QG); [easy|easy|]. exists q. split; [|split; [easy|split; [|easy]]].
  - split; [easy|]. right. split; [now apply HNone|].
    destruct S1 as (P1 & _ & P3 & _). unfold is_u32 in *. rewrite read_page_eq by (rewrite ?O2; lia || easy). now rewrite O2, D1, D2, R.
  - split; [easy|]. split; [now apply HNone|]. rewrite D1, D2, O2. intros io HBI HIO. destruct (HR io HBI HIO) as (p2 & z2 & R2 & Q2 & G2). exists p2, z2. split; [easy|].
    split; [|easy]. apply (page_kept_trans _ p); [now apply page_kept_sym|easy].
Qed.
(** The pages of a table in a database that was saved, and in the database that is opened from the file. *)
Lemma reopen_linked b d d2 last (G : N -> grade) :
  (forall g i p, kept_page b d g i p -> exists q, page_of b d2 i q /\ page_kept p q /\ self_contained b d2 g i q /\ graded b (db_kind d) (dh_page_size (db_header d)) g q) ->
  forall l i, linked b d last i l -> (forall j p, In (j, p) l -> kept_page b d (G j) j p) ->
  exists l', linked b d2 last i l' /\ Forall2 (fun x y => fst y = fst x /\ page_kept (snd x) (snd y)) l l' /\ Forall (fun y => self_contained b d2 (G (fst y)) (fst y) (snd y)) l'.
Proof.
  intros HP l i HL. induction HL as [p HO|i p l NE HO HI HL IH]; intro HA.
  - destruct (HP (G last) last p) as (q & Q1 & Q2 & Q3 & _); [apply HA; now left|]. exists [(last, q)]. split; [now constructor|]. split; (constructor; [easy|constructor]).
  - destruct (HP (G i) i p) as (q & Q1 & Q2 & Q3 & _); [apply HA; now left|]. destruct IH as (l' & L1 & L2 & L3); [intros; apply HA; now right|].
    assert (pg_header q = pg_header p) as EQ by apply Q2. exists ((i, q) :: l'). rewrite <- EQ in HI, L1. split; [now constructor|]. split; (constructor; [easy|easy]).
Qed.
Lemma kept_all l l' : Forall2 (fun x y : N * page => fst y = fst x /\ page_kept (snd x) (snd y)) l l' -> Forall2 same_values (rows_of l) (rows_of l').
Proof.
  intro H. induction H as [|x y l l' [_ H] _ IH]; [constructor|]. cbn [rows_of flat_map]. apply Forall2_app; [now apply kept_rows|easy].
Qed.
Lemma same_variant k r r' : same_values r r' -> is_variant k r' = is_variant k r.
Proof. destruct r as [k1 vs oc|], r' as [k2 vs' oc'|]; cbn; try easy. intros (-> & _). easy. Qed.
Lemma same_variants k l l' : Forall2 same_values l l' -> forallb (is_variant k) l' = forallb (is_variant k) l.
Proof. intro H. induction H as [|x y l l' H _ IH]; [easy|]. cbn [forallb]. now rewrite IH, (same_variant k x y). Qed.

(** ** What the row iterator shows *)
Lemma rows_linked_inv b k : forall n d it rows i, snd (rows_n b k n d it) = Some (DOk rows) -> live d it -> it_next it = Some i -> it_off it <= i ->
  exists l, linked b d (it_last it) i l /\ rows = rows_of l /\ forallb (is_variant k) rows = true.
Proof.
  induction n as [|n IH]; intros d it rows i H HV HN HO; [easy|]. cbn [rows_n] in H.
  destruct (iter_next b d it) as [[d1 it1] [[[j p]|]|e|]] eqn:E; try easy.
  - pose proof (iter_next_page_inv b d it d1 it1 j p HV E) as (HN' & _ & HP). assert (j = i) as -> by congruence.
    destruct (iter_next_page b d it i p HV HN HO HP) as (d1' & it1' & E' & HV1 & HLD & HO1 & HL1 & HN1). rewrite E in E'. injection E' as <- <-.
    unfold rows_as in H. destruct (forallb (is_variant k) (rows_of_page p)) eqn:EV; [|easy].
    destruct (rows_n b k n d1 it1) as [d2 [[l2|e|]|]] eqn:E2; try easy. cbn [snd] in H. injection H as <-.
    destruct (i =? it_last it) eqn:EI.
    + assert (i = it_last it) as -> by lia. destruct n as [|n]; [easy|]. cbn [rows_n] in E2. unfold iter_next in E2. rewrite HN1 in E2.
      injection E2 as <- <-. exists [(it_last it, p)]. split; [now constructor|]. cbn [rows_of flat_map snd]. rewrite !app_nil_r. easy.
    + destruct (N.le_gt_cases (ph_next (pg_header p)) i) as [HLE|HLT].
      { exfalso. destruct n as [|n]; [easy|]. cbn [rows_n] in E2. unfold iter_next in E2. rewrite HN1 in E2.
        now replace (ph_next (pg_header p) <? it_off it1) with true in E2 by lia. }
      destruct (IH d1 it1 l2 (ph_next (pg_header p))) as (l & L1 & L2 & L3); [now rewrite E2|easy|easy|lia|].
      exists ((i, p) :: l). split; [|split].
      * constructor; try easy; [lia|]. apply (linked_loaded b d d1 _ i p HLD HP). now rewrite <- HL1.
      * cbn [rows_of flat_map snd]. fold (rows_of l). now rewrite L2.
      * now rewrite forallb_app, EV, L3.
  - exfalso. unfold iter_next in E. rewrite HN in E. destruct (i <? it_off it); [easy|]. destruct (it_len it <=? i - it_off it); [easy|].
    now destruct (load_entry b d (it_base it + (i - it_off it)) i) as [? [?|?|]].
Qed.
Lemma iter_rows_iff b k d rows : snd (iter_rows b k d) = Some (DOk rows) <->
  exists i t l, find_table (PT k) (db_header d) = Some (i, t) /\ linked b d (tb_last t) (tb_first t) l /\ rows = rows_of l /\ forallb (is_variant k) rows = true.
Proof.
  split.
  - intro H. unfold iter_rows, iter_pages in H. destruct (find_table (PT k) (db_header d)) as [[i t]|] eqn:ET; [|easy].
    destruct (N.eq_dec (tb_first t) 0) as [HZ|NZ].
    { exfalso. cbn [rows_n] in H. unfold iter_next, iter_of in H. cbn [it_next it_off] in H. rewrite HZ in H. discriminate H. }
    apply (rows_linked_inv b k _ d (iter_of d t) rows (tb_first t)) in H; [|apply iter_of_live|reflexivity|cbn; lia].
    destruct H as (l & L1 & L2 & L3). now exists i, t, l.
  - intros (i & t & l & H1 & H2 & -> & H3). rewrite (iter_rows_linked b k d i t l H1 H2). unfold rows_as. now rewrite H3.
Qed.
Lemma reopen_rows b d d' k rows : savable b d -> flush b d = DOk d' -> snd (iter_rows b k d) = Some (DOk rows) ->
  (forall i t l j p, find_table (PT k) (db_header d) = Some (i, t) -> linked b d (tb_last t) (tb_first t) l -> In (j, p) l -> kept_page b d GAny j p) ->
  exists d2 rows', db_open (db_io d') (db_kind d) = DOk d2 /\ snd (iter_rows b k d2) = Some (DOk rows') /\ Forall2 same_values rows rows'.
Proof.
  intros HS HF HR HA. destruct (reopen_page b d d' HS HF) as (d2 & O1 & O2 & _ & _ & O3). apply iter_rows_iff in HR as (i & t & l & H1 & H2 & -> & H4).
  destruct (reopen_linked b d d2 (tb_last t) (fun _ => GAny) O3 l (tb_first t) H2) as (l' & L1 & L2 & _); [intros j p HJ; now apply (HA i t l)|].
  apply kept_all in L2. exists d2, (rows_of l'). split; [easy|]. split; [|easy]. apply iter_rows_iff. exists i, t, l'. rewrite O2. repeat (split; [easy|]).
  now rewrite (same_variants k _ _ L2).
Qed.

(** ** Replacing a page *)
Lemma getN_set_page d j q p' k : in_memory d j q -> getN (db_pages (set_page d j p')) k = if k =? j - 1 then Some (Some p') else getN (db_pages d) k.
Proof. intros [_ HM]. apply getN_Some_lt in HM. unfold set_page. cbn [with_pages db_pages]. now rewrite getN_set_nth. Qed.
Lemma set_page_of b d j q i p p' : in_memory d j q -> page_of b d i p -> page_of b (set_page d j p') i (if i =? j then p' else p).
Proof.
  intros HM [HI HP]. unfold page_of. split; [easy|]. rewrite (getN_set_page d j q p') by easy. destruct HM as [HJ _]. destruct (i =? j) eqn:E.
  - left. now replace (i - 1 =? j - 1) with true by lia.
  - replace (i - 1 =? j - 1) with false by lia. exact HP.
Qed.
Definition repl (j : N) (p' : page) (x : N * page) : N * page := if fst x =? j then (j, p') else x.
Lemma linked_set b d j p p' last : in_memory d j p -> ph_next (pg_header p') = ph_next (pg_header p) ->
  forall l i, linked b d last i l -> linked b (set_page d j p') last i (map (repl j p') l).
Proof.
  intros HM HH l i HL. assert (forall i q, page_of b d i q -> i = j -> q = p) as HU.
  { intros i0 q HQ ->. destruct HM as [HM1 HM2]. apply (page_of_fun b d j); [easy|]. split; [easy|now left]. }
  induction HL as [q HO|i q l NE HO HI HL IH]; cbn [map].
  - pose proof (set_page_of b d j p last q p' HM HO) as H. unfold repl. cbn [fst]. destruct (last =? j) eqn:E; [|now constructor].
    assert (last = j) as -> by lia. now constructor.
  - pose proof (set_page_of b d j p i q p' HM HO) as H. unfold repl at 1. cbn [fst]. destruct (i =? j) eqn:E.
    + assert (i = j) as -> by lia. rewrite (HU j q HO eq_refl), <- HH in *. now constructor.
    + now constructor.
Qed.
Lemma linked_nodup b d last l i : linked b d last i l -> NoDup (map fst l).
Proof.
  intro H. induction H as [p HO|i p l NE HO HI HL IH]; cbn [map fst]; [constructor; [easy|constructor]|]. constructor; [|easy].
  apply linked_ge in HL. rewrite Forall_forall in HL. intro HX. apply in_map_iff in HX as (x & E & HX). apply HL in HX. lia.
Qed.
Lemma repl_id j p' l : ~ In j (map fst l) -> map (repl j p') l = l.
Proof.
  induction l as [|x l IH]; intro H; [easy|]. cbn [map] in *. rewrite IH by (intro; apply H; now right). f_equal. unfold repl.
  destruct (fst x =? j) eqn:E; [|easy]. exfalso. apply H. left. lia.
Qed.
Lemma rows_repl b d last i j p p' l1 l2 : linked b d last i (l1 ++ (j, p) :: l2) -> rows_of (map (repl j p') (l1 ++ (j, p) :: l2)) = rows_of l1 ++ rows_of_page p' ++ rows_of l2.
Proof.
  intro H. apply linked_nodup in H. rewrite map_app in H. cbn [map fst] in H. apply NoDup_remove_2 in H. rewrite map_app. cbn [map].
  rewrite !repl_id by (intro; apply H, in_or_app; tauto). unfold repl. cbn [fst]. rewrite N.eqb_refl. unfold rows_of. now rewrite flat_map_app.
Qed.
Lemma set_page_savable b d j p p' : in_memory d j p -> savable b d -> page_consistent b (db_kind d) (dh_page_size (db_header d)) p' -> savable b (set_page d j p').
Proof.
  intros HM (S0 & S1 & S2 & S3 & S4) HC. unfold savable. split; [exact S0|]. split; [exact S1|]. split; [exact S2|]. split; [unfold set_page; cbn [with_pages db_pages db_header]; now rewrite len_set_nth|].
  intros k q. rewrite (getN_set_page d j p p') by easy. destruct (k =? j - 1); [intros [= <-]; exact HC|]. intro HK. exact (S4 k q HK).
Qed.
Lemma set_page_others b d j p p' g i q : in_memory d j p -> i <> j -> kept_page b d g i q -> kept_page b (set_page d j p') g i q.
Proof.
  intros HM NE [[[H1 H2] H3]|(H1 & H2 & H3)].
  - left. split; [split; [easy|]|exact H3]. rewrite (getN_set_page d j p p') by easy. destruct HM as [HJ _]. now replace (i - 1 =? j - 1) with false by lia.
  - right. split; [easy|]. split; [|exact H3]. rewrite (getN_set_page d j p p') by easy. destruct HM as [HJ _]. now replace (i - 1 =? j - 1) with false by lia.
Qed.
(** Saving after pages of a table were changed, for any table. *)
Lemma replaced_rows b d j p p' d' k i t l : savable b d -> in_memory d j p -> page_consistent b (db_kind d) (dh_page_size (db_header d)) p' ->
  ph_next (pg_header p') = ph_next (pg_header p) -> flush b (set_page d j p') = DOk d' ->
  find_table (PT k) (db_header d) = Some (i, t) -> linked b d (tb_last t) (tb_first t) l ->
  (forall m q, In (m, q) l -> m = j \/ kept_page b d GAny m q) ->
  let rows := rows_of (map (repl j p') l) in forallb (is_variant k) rows = true ->
  exists d2 rows', db_open (db_io d') (db_kind d) = DOk d2 /\ snd (iter_rows b k d2) = Some (DOk rows') /\ Forall2 same_values rows rows'.
Proof.
  intros HS HM HC HH HF HT HL HA rows HV. pose proof (set_page_savable b d j p p' HM HS HC) as HS1. pose proof (linked_set b d j p p' (tb_last t) HM HH l (tb_first t) HL) as HL1.
  apply (reopen_rows b (set_page d j p') d' k rows HS1 HF).
  - apply iter_rows_iff. exists i, t, (map (repl j p') l). now repeat (split; [easy|]).
  - intros i0 t0 l0 m q E1 E2 E3. change (db_header (set_page d j p')) with (db_header d) in E1. rewrite HT in E1. injection E1 as <- <-.
    assert (l0 = map (repl j p') l) as ->.
    { apply (proj2 (collect_iff b (set_page d j p') t l0)) in E2. apply (proj2 (collect_iff b (set_page d j p') t (map (repl j p') l))) in HL1. congruence. }
    apply in_map_iff in E3 as ([m0 q0] & E3 & E4). unfold repl in E3. cbn [fst] in E3. destruct (m0 =? j) eqn:EM.
    + injection E3 as <- <-. left. split; [|exact I]. split; [apply HM|]. rewrite (getN_set_page d j p p') by easy. now rewrite N.eqb_refl.
    + injection E3 as <- <-. destruct (HA m0 q0 E4) as [HX|HX]; [lia|]. apply (set_page_others b d j p); [easy|lia|easy].
Qed.
(** Inserting rows. *)
Lemma insert_rows b d j h c p' ops d' k i t l1 l2 : savable b d -> in_memory d j (mk_page h (PData c)) -> alloc_ok b dstr_good (db_kind d) (dh_page_size (db_header d)) h c ->
  ph_type h = PT k -> Forall (op_ok b dstr_good (ph_type h)) ops -> run b ops (mk_page h (PData c)) = Ok p' -> flush b (set_page d j p') = DOk d' ->
  find_table (PT k) (db_header d) = Some (i, t) -> linked b d (tb_last t) (tb_first t) (l1 ++ (j, mk_page h (PData c)) :: l2) ->
  (forall m q, In (m, q) (l1 ++ l2) -> kept_page b d GAny m q) ->
  forallb (is_variant k) (rows_of (l1 ++ l2)) = true ->
  exists d2 rows' new, db_open (db_io d') (db_kind d) = DOk d2 /\ snd (iter_rows b k d2) = Some (DOk rows') /\ extends (mk_page h (PData c)) p' new /\
    Forall2 same_values (rows_of l1 ++ (map snd (dc_rows c) ++ map snd new) ++ rows_of l2) rows'.
Proof.
  intros HS HM HA HT HO HR HF HTB HL HA2 HV. destruct (run_tidy b _ _ ops h c p' HA HO HR) as (h' & c' & new & -> & P1 & P2 & P3 & _).
  pose proof P3 as (h0 & c0 & h1 & c1 & E1 & E2 & SR & EH & ER & _). injection E1 as <- <-. injection E2 as <- <-. destruct SR as (_ & R2 & R3 & _).
  assert (rows_of (map (repl j (mk_page h' (PData c'))) (l1 ++ (j, mk_page h (PData c)) :: l2)) = rows_of l1 ++ (map snd (dc_rows c) ++ map snd new) ++ rows_of l2) as ERW.
  { rewrite (rows_repl b d (tb_last t) (tb_first t)) by easy. cbn [rows_of_page pg_content]. now rewrite ER, map_app. }
  destruct (replaced_rows b d j (mk_page h (PData c)) (mk_page h' (PData c')) d' k i t (l1 ++ (j, mk_page h (PData c)) :: l2)) as (d2 & rows' & G1 & G2 & G3); try easy.
  - intros m q HI. apply in_app_or in HI as [HI|[HI|HI]]; [right; apply HA2, in_or_app; now left|injection HI as <- _; now left|right; apply HA2, in_or_app; now right].
  - rewrite ERW. unfold rows_of in HV. rewrite flat_map_app, forallb_app in HV. apply andb_true_iff in HV as [V1 V2]. rewrite !forallb_app. unfold rows_of. rewrite V1, V2, andb_true_r.
    cbn [andb]. rewrite <- forallb_app, <- map_app, <- ER. destruct P1 as (_ & _ & _ & _ & _ & _ & _ & _ & _ & _ & P11). rewrite R2, HT in P11.
    apply forallb_forall. intros r HI. apply in_map_iff in HI as (x & <- & HI). rewrite Forall_forall in P11. apply P11 in HI as [_ HI].
    destruct (snd x) as [k2 vs oc|]; cbn in HI |- *; [subst k2|easy]. now destruct (rkind_eq_dec k k).
  - exists d2, rows', new. rewrite ERW in G3. now repeat (split; [easy|]).
Qed.
