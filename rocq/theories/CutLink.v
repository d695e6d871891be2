(** * Saving that is interrupted, in programs that change links, types of pages and tables *)
From Coq Require Import NArith ZArith List Bool Lia.
From Coq Require Import ZifyBool ZifyNat ZifyN.
From Verif Require Import Base BaseFacts Segs Str StrFacts StrGood Schema SchemaFacts Oa OaFacts OaSpec Rows RowFacts RowSpec Page BitFacts PageFacts PageRw PageSpec IndexSpec Alloc AllocFacts AllocSpec Db DbFacts DbFlush DbFresh DumpFacts Robust Reread Progress Insert Session Revise Relink Cut.
Import ListNotations.
Open Scope N_scope.

(** ** Spec *)
(** The header and the pages of the last save. *)
Definition saves (l : list act) : bool := existsb (fun a => match a with ASave => true | _ => false end) l.
Definition task_saved (st sv : dbhdr * shelves) (a : task) : dbhdr * shelves :=
  match a with
  | TActs P l => (if saves l then fst st else fst sv, snd (fold_left (saved_step P) l (snd st, snd sv)))
  | _ => sv
  end.
Fixpoint tasks_saved (st sv : dbhdr * shelves) (l : list task) : dbhdr * shelves :=
  match l with [] => sv | a :: rest => tasks_saved (task_work st a) (task_saved st sv a) rest end.
(** Between two pages: new pages in front of [j], old pages from [j] on. *)
Definition parted (j : N) (new old : shelves) : shelves := fun i => if i <? j then new i else old i.
(** The rows of table [r] that a program that opens the file sees. *)
Definition shown (b : build) (k : dbtype) (r : rkind) (io : list N) (rows : list row) : Prop :=
  exists d rows', db_open io k = DOk d /\ snd (iter_rows b r d) = Some (DOk rows') /\ Forall2 same_values rows rows'.

(** ** What is in the file *)
Definition on_file (b : build) (d : database) (G : N -> grade) (h : dbhdr) (A : shelves) : Prop :=
  dh_page_size h = dh_page_size (db_header d) /\ dh_next h = dh_next (db_header d) /\ exists d0, db_open (db_io d) (db_kind d) = DOk d0 /\ db_header d0 = h /\ stores b d0 G A.
Lemma acts_on_file b : forall d l d', acts b d l d' -> forall G P A h A0, stores b d G A -> acts_ok b (db_header d) G P A l -> on_file b d G h A0 ->
  on_file b d' G (if saves l then db_header d else h) (snd (fold_left (saved_step P) l (A, A0))).
Proof.
  intros d l d' H. induction H as [d|d a d1 l d2 HD HR IH]; intros G P A h A0 HS HA HO; [exact HO|]. cbn [acts_ok] in HA. destruct HA as [A1 A2]. destruct (does_stores b d a d1 G P A HS A1 HD) as (S1 & S2 & S3).
  cbn [fold_left]. unfold saved_step at 2. cbn [fst snd]. destruct (match a with ASave => true | _ => false end) eqn:E.
  - destruct a; try easy. inversion HD as [| | | |? HF]; subst. cbn [act_work] in *. change (saves (ASave :: l)) with true. cbv iota.
    assert (on_file b d1 G (db_header d) A) as HO1. { destruct (flush_stores b d d1 G A HS HF) as (d0 & O1 & O2 & O3 & O4). split; [now rewrite S2|]. split; [now rewrite S2|]. exists d0. rewrite S3. now split. }
    pose proof (IH G P A (db_header d) A S1 ltac:(now rewrite S2) HO1) as X. rewrite S2 in X. now destruct (saves l).
  - assert (a <> ASave) as NS by (now destruct a). destruct (does_io b d a d1 HD NS) as (I1 & I2 & I3). replace (match a with ASave => _ | _ => A0 end) with A0 by (now destruct a).
    assert (on_file b d1 G h A0) as HO1. { destruct HO as (O1 & O2 & d0 & O3). split; [now rewrite S2|]. split; [now rewrite S2|]. exists d0. now rewrite I1, I2. }
    pose proof (IH G P (act_work P A a) h A0 S1 ltac:(now rewrite S2) HO1) as X. rewrite S2 in X. replace (saves (a :: l)) with (saves l); [exact X|]. unfold saves at 2. cbn [existsb]. now rewrite E.
Qed.
Lemma load_io b d j d1 r : load_page b d j = (d1, r) -> db_io d1 = db_io d /\ db_kind d1 = db_kind d /\ db_header d1 = db_header d.
Proof.
  intro H. unfold load_page in H. destruct (wsub b 64 j 1) as [pos| |]; [|now injection H as <- <-|now injection H as <- <-]. destruct (pos <? len (db_pages d)); [|now injection H as <- <-].
  pose proof (load_entry_same b d pos j) as (X1 & X2 & X3 & _). now rewrite H in X1, X2, X3.
Qed.
Lemma tasks_on_file b : forall d l d', tasks b d l d' -> forall G st sv, stores b d G (snd st) -> db_header d = fst st -> tasks_ok b (db_kind d) G st l -> on_file b d G (fst sv) (snd sv) ->
  on_file b d' G (fst (tasks_saved st sv l)) (snd (tasks_saved st sv l)).
Proof.
  intros d l d' H. induction H as [d|d a d1 l d2 HD _ IH]; intros G st sv HS HH HA HO; [exact HO|]. cbn [tasks_ok] in HA. destruct HA as [A1 A2]. destruct (performs_stores b d a d1 G st HS HH A1 HD) as (S1 & S2 & S3).
  cbn [tasks_saved]. apply IH; [exact S1|exact S2|now rewrite S3|]. clear IH A2. destruct HD as [P l0 d1 HL|j n t d1 p HL|f]; cbn [task_ok task_work task_saved fst snd] in *.
  - rewrite <- HH in *. now apply (acts_on_file b d l0 d1 HL).
  - destruct (load_io b d j d1 _ HL) as (I1 & I2 & I3). destruct HO as (O1 & O2 & d0 & O3). unfold on_file, set_page. cbn [with_pages db_io db_kind db_header]. rewrite I1, I2, I3. split; [easy|]. split; [easy|]. now exists d0.
  - destruct HO as (O1 & O2 & d0 & O3). unfold on_file, with_header in *. cbn [db_io db_kind db_header] in *. destruct A1 as (_ & X1 & X2 & _). rewrite HH in *. split; [lia|]. split; [lia|]. now exists d0.
Qed.
(** ** Pages in front of the interruption are new, those behind are old *)
Lemma parted_stores b d G h A A0 j : 1 <= j -> stores b d G A -> on_file b d G h A0 -> stores b (unload_from d j) G (parted j A A0).
Proof.
  intros HJ HS (O1 & O2 & d0 & O3 & O4 & O5). pose proof HS as ((_ & B1 & B2 & _) & _). pose proof O5 as ((_ & C1 & C2 & _) & _). destruct (open_pages _ _ _ O3) as (D1 & D2 & _). rewrite D2, O4 in C1. rewrite O4 in C2.
  pose proof (header_work_stores b d G A h HS C1 O1 O2 C2) as HS'. assert (on_disk b (with_header d h) G A0) as HD by (exists d0; unfold with_header; cbn [db_io db_kind db_header]; now split).
  pose proof (unload_stores b _ G A A0 j HJ HS' HD) as HU.
  pose proof (header_work_stores b _ G _ (db_header d) HU B1 (eq_sym O1) (eq_sym O2) B2) as X. exact X.
Qed.
Lemma cut_stores b d G h A A0 j io' : stores b d G A -> on_file b d G h A0 -> interrupted b d j io' ->
  exists d2, db_open io' (db_kind d) = DOk d2 /\ db_header d2 = db_header d /\ stores b d2 G (spliced j A A0).
Proof.
  intros HS HO (HJ & HB & d1 & HF & HX). pose proof (parted_stores b d G h A A0 j HJ HS HO) as HU. destruct (flush_stores b _ d1 G _ HU HF) as (d2 & O1 & O2 & O3 & O4).
  change (db_kind (unload_from d j)) with (db_kind d) in *. change (db_header (unload_from d j)) with (db_header d) in *. cbv zeta in HX.
  assert (has io' 0 (dbhdr_enc (db_header d2))) as HH.
  { pose proof (open_header b _ _ _ _ _ O1 O4) as E. pose proof (has_len _ _ _ E) as EL. apply has_get in E as [_ E2]. rewrite O2 in *. rewrite len_dbhdr_enc in *. destruct HS as ((_ & _ & S2 & _) & _).
    apply has_get. rewrite len_dbhdr_enc. split; [lia|]. intros x Hx. rewrite <- E2 by easy. apply HX; [lia|left; nia]. }
  destruct (torn_stores b (db_io d1) io' (db_kind d) d2 G _ j HB O1 O4 HH) as (d3 & T1 & T2 & T3); [now rewrite O2|].
  exists d3. split; [exact T1|]. split; [congruence|]. eapply stores_ext; [|exact T3]. intro i. cbv beta. unfold spliced, parted. destruct (i =? j) eqn:E1, (i <? j) eqn:E2; easy || lia.
Qed.
(** ** Within the header page *)
(** A file whose header page has the old or the new header: all pages are old. *)
Lemma header_cut b d G h A A0 io' h' : stores b d G A -> on_file b d G h A0 -> interrupted_header d io' -> h' = h \/ h' = db_header d -> has io' 0 (dbhdr_enc h') ->
  exists d2, db_open io' (db_kind d) = DOk d2 /\ db_header d2 = h' /\ stores b d2 G A0.
Proof.
  intros HS HO (HB & HX) HE HH. assert (forall d0 io0, db_open io0 (db_kind d) = DOk d0 -> db_header d0 = h' -> stores b d0 G (parted 1 A A0) \/ stores b d0 G A0 -> dh_page_size h' = dh_page_size (db_header d) ->
    (forall x, dh_page_size (db_header d) <= x -> x < len io0 -> getN io' x = getN io0 x) -> exists d2, db_open io' (db_kind d) = DOk d2 /\ db_header d2 = h' /\ stores b d2 G A0) as HC.
  { intros d0 io0 P1 P2 P3 P4 P5. assert (exists A1, stores b d0 G A1 /\ forall i s, A0 i = Some s -> 1 <= i -> A1 i = A0 i) as (A1 & T & TE).
    { destruct P3 as [P3|P3]; [|now exists A0]. exists (parted 1 A A0). split; [exact P3|]. intros i s _ HI. unfold parted. now replace (i <? 1) with false by lia. }
    destruct (torn_stores b io0 io' (db_kind d) d0 G A1 0 HB P1 T) as (d3 & T1 & T2 & T3).
    - now rewrite P2.
    - rewrite P2. intros x X1 X2. rewrite P4 in X2. apply P5; [lia|exact X1].
    - exists d3. split; [exact T1|]. split; [congruence|]. destruct HO as (_ & _ & dz & _ & _ & (_ & _ & Z3)). destruct T3 as (U1 & U2 & U3). split; [exact U1|]. split; [exact U2|]. intros i s E. apply U3.
      destruct (Z3 i s E) as (p & PZ & _). apply page_of_range in PZ as [PZ _]. replace (i =? 0) with false by lia. now rewrite (TE i s E PZ). }
  destruct HE as [->| ->].
  - destruct HO as (O1 & O2 & d0 & O3 & O4 & O5). apply (HC d0 (db_io d)); try easy; [now right|]. intros x X1 X2. destruct (HX x X2) as [X|[X _]]; [easy|lia].
  - pose proof (parted_stores b d G h A A0 1 ltac:(lia) HS HO) as HU. pose proof HS as ((S0 & S1 & S2 & S3 & S4) & _). destruct (flush_first b d S2) as (d1 & F1 & F2). destruct (flush_stores b _ d1 G _ HU F1) as (d2 & O1 & O2 & O3 & O4).
    change (db_kind (unload_from d 1)) with (db_kind d) in *. change (db_header (unload_from d 1)) with (db_header d) in *. apply (HC d2 (db_io d1)); try easy; [now left|]. rewrite F2. intros x X1 X2.
    destruct (N.lt_ge_cases x (len (db_io d))) as [HL|HL].
    + pose proof (write_segs_frame (db_io d) [(0, header_page (db_header d))] x HL) as Y. cbn [write_segs] in Y. rewrite Y; [destruct (HX x HL) as [X|[X _]]; [easy|lia]|]. intro HE. apply Exists_cons in HE as [HE|HE]; [|now apply Exists_nil in HE].
      unfold seg_end in HE. cbn [fst snd] in HE. rewrite len_header_page in HE by easy. lia.
    + exfalso. rewrite len_write_at, len_header_page in X2 by (easy || (intro E; pose proof (len_header_page _ S2) as Y; rewrite E in Y; cbn in Y; lia)). lia.
Qed.
(** Tables whose last pages differ only in the last byte: the encodings differ in one byte. *)
Lemma set_last_enc t m : forall l j x i, find_from i t l = Some (j, x) -> tb_last x / 256 = m / 256 ->
  exists pre u v post, flat_map table_enc l = pre ++ u :: post /\ flat_map table_enc (set_last_in t m l) = pre ++ v :: post.
Proof.
  induction l as [|y l IH]; intros j x i H HM; [easy|]. cbn [find_from set_last_in] in *. destruct (ptype_eqb (tb_type y) t) eqn:E.
  - injection H as _ <-. cbn [flat_map]. unfold table_enc at 1 3. cbn [tb_type tb_empty tb_first tb_last]. exists (le_enc 4 (ptype_code (tb_type y)) ++ le_enc 4 (tb_empty y) ++ le_enc 4 (tb_first y)), (tb_last y mod 256), (m mod 256), (le_enc 3 (m / 256) ++ flat_map table_enc l).
    change (le_enc 4 (tb_last y)) with ((tb_last y mod 256) :: le_enc 3 (tb_last y / 256)). change (le_enc 4 m) with ((m mod 256) :: le_enc 3 (m / 256)). rewrite HM, <- !app_assoc. now split.
  - destruct (IH j x (i + 1) H HM) as (pre & u & v & post & E1 & E2). exists (table_enc y ++ pre), u, v, post. cbn [flat_map]. rewrite E1, E2, <- !app_assoc. now split.
Qed.
Lemma one_byte (io pre post : list N) u v : len pre + 1 + len post <= len io -> (forall x, x < len pre + 1 + len post -> getN io x = getN (pre ++ u :: post) x \/ getN io x = getN (pre ++ v :: post) x) ->
  has io 0 (pre ++ u :: post) \/ has io 0 (pre ++ v :: post).
Proof.
  intros HL HX. assert (forall w, len (pre ++ w :: post) = len pre + 1 + len post) as EL by (intro w; rewrite len_app, len_cons; lia).
  assert (forall x w, x <> len pre -> getN (pre ++ w :: post) x = getN (pre ++ u :: post) x) as HS.
  { intros x w HN. rewrite !getN_app. destruct (x <? len pre) eqn:E; [easy|]. rewrite !getN_cons. now replace (x - len pre =? 0) with false by lia. }
  destruct (HX (len pre) ltac:(lia)) as [X|X]; [left|right]; apply has_get; rewrite EL; (split; [lia|]); intros x Hx; rewrite N.add_0_l; (destruct (N.eq_dec x (len pre)) as [->|NE]; [exact X|]); destruct (HX x Hx) as [Y|Y]; rewrite Y; try easy; [now apply HS|symmetry; now apply HS].
Qed.
Lemma set_last_cut t m h j x io : find_table t h = Some (j, x) -> tb_last x / 256 = m / 256 -> 28 + 16 * len (dh_tables h) <= len io ->
  (forall y, y < 28 + 16 * len (dh_tables h) -> getN io y = getN (dbhdr_enc h) y \/ getN io y = getN (dbhdr_enc (set_last t m h)) y) -> has io 0 (dbhdr_enc h) \/ has io 0 (dbhdr_enc (set_last t m h)).
Proof.
  intros HT HM HL HX. destruct (set_last_enc t m (dh_tables h) j x 0 HT HM) as (pre & u & v & post & E1 & E2). pose proof (len_dbhdr_enc h) as EL.
  set (fr := le_enc 4 0 ++ le_enc 4 (dh_page_size h) ++ le_enc 4 (dh_num h) ++ le_enc 4 (dh_next h) ++ le_enc 4 (dh_unknown h) ++ le_enc 4 (dh_seq h) ++ le_enc 4 0).
  assert (dbhdr_enc h = (fr ++ pre) ++ u :: post) as F1 by (unfold dbhdr_enc, fr; rewrite E1, <- !app_assoc; reflexivity).
  assert (dbhdr_enc (set_last t m h) = (fr ++ pre) ++ v :: post) as F2 by (unfold dbhdr_enc, fr, set_last; cbn [dh_page_size dh_num dh_next dh_unknown dh_seq dh_tables]; rewrite E2, <- !app_assoc; reflexivity).
  rewrite F1, F2 in *. rewrite len_app, len_cons in EL. apply one_byte; [lia|]. intros y Hy. apply HX. lia.
Qed.
Lemma header_bytes b d G h A0 io' : on_file b d G h A0 -> len (dh_tables h) = len (dh_tables (db_header d)) -> interrupted_header d io' ->
  28 + 16 * len (dh_tables h) <= len io' /\ forall y, y < 28 + 16 * len (dh_tables h) -> getN io' y = getN (dbhdr_enc h) y \/ getN io' y = getN (dbhdr_enc (db_header d)) y.
Proof.
  intros (O1 & O2 & d0 & O3 & O4 & O5) HL (HB & HX). pose proof (open_header b _ _ _ _ _ O3 O5) as E. rewrite O4 in E. pose proof (has_len _ _ _ E) as EL. apply has_get in E as [_ E2]. rewrite len_dbhdr_enc in *.
  assert (forall y, y < 28 + 16 * len (dh_tables h) -> getN io' y = getN (dbhdr_enc h) y \/ getN io' y = getN (dbhdr_enc (db_header d)) y) as HE.
  { intros y Hy. destruct (HX y ltac:(lia)) as [->|[_ ->]]; [left; now apply E2|right]. unfold header_page. rewrite getN_app, len_dbhdr_enc, <- HL. now replace (y <? 28 + 16 * len (dh_tables h)) with true by lia. }
  split; [|exact HE]. assert (exists y, getN io' (27 + 16 * len (dh_tables h)) = Some y) as [y EY].
  { destruct (HE (27 + 16 * len (dh_tables h)) ltac:(lia)) as [->| ->]; apply getN_lt_Some; rewrite len_dbhdr_enc; lia. }
  apply getN_Some_lt in EY. lia.
Qed.
Lemma header_same b d G A0 io' : on_file b d G (db_header d) A0 -> interrupted_header d io' -> has io' 0 (dbhdr_enc (db_header d)).
Proof. intros HO HI. destruct (header_bytes b d G _ A0 io' HO eq_refl HI) as [H1 H2]. apply has_get. rewrite len_dbhdr_enc. split; [lia|]. intros y Hy. rewrite N.add_0_l. now destruct (H2 y Hy). Qed.
