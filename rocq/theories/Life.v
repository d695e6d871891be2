(** * The life of a database file: programs that end or are cut off, and appended pages, in any order *)
From Coq Require Import NArith ZArith List Bool Lia.
From Coq Require Import ZifyBool ZifyNat ZifyN.
From Verif Require Import Base BaseFacts Segs Str StrFacts StrGood Schema SchemaFacts Oa OaFacts OaSpec Rows RowFacts RowSpec Page BitFacts PageFacts PageRw PageSpec IndexSpec Alloc AllocFacts AllocSpec Db DbFacts DbFlush DbFresh DumpFacts Robust Reread Progress Insert Session Revise Relink Cut Untouched CutLink Append.
Import ListNotations.
Open Scope N_scope.

(** ** Model *)
(** How a program ends: it saves (as [close] does, src/pdb/io.rs:220-224); it stops without saving (there is no [Drop]); its last save stops within the header page, in front of page [j], or within page [j].
    If it stops within the header page, [new] tells which header the bytes there are: the one of this save or the one of the save before.  (A mixture that is neither is not covered.) *)
Inductive ending : Type := EndSaved | EndKilled | EndHeader (new : bool) | EndBefore (j : N) | EndWithin (j : N).
Inductive event : Type := EProgram (l : list task) (e : ending) | EAppend (l : list page) (T : list shelf).
Definition ends (b : build) (d : database) (e : ending) (io' : list N) : Prop :=
  match e with
  | EndSaved => exists d2, flush b d = DOk d2 /\ db_io d2 = io'
  | EndKilled => db_io d = io'
  | EndHeader new => interrupted_header d io' /\ exists d0, db_open (db_io d) (db_kind d) = DOk d0 /\ has io' 0 (dbhdr_enc (db_header (if new then d else d0)))
  | EndBefore j => exists d2, flush b (unload_from d j) = DOk d2 /\ db_io d2 = io'
  | EndWithin j => interrupted b d j io'
  end.
Definition happens (b : build) (k : dbtype) (io : list N) (e : event) (io' : list N) : Prop :=
  match e with
  | EProgram l en => exists d d1, db_open io k = DOk d /\ tasks b d l d1 /\ ends b d1 en io'
  | EAppend l _ => appended b k io l io'
  end.
Inductive history (b : build) (k : dbtype) : list N -> list event -> list N -> Prop :=
| history_nil io : history b k io [] io
| history_cons io e io1 l io2 : happens b k io e io1 -> history b k io1 l io2 -> history b k io (e :: l) io2.

(** ** Spec *)
Definition end_work (st : dbhdr * shelves) (l : list task) (e : ending) : dbhdr * shelves :=
  let new := tasks_work st l in let old := tasks_saved st st l in
  match e with
  | EndSaved => new
  | EndKilled => old
  | EndHeader w => (fst (if w then new else old), snd old)
  | EndBefore j => (fst new, parted j (snd new) (snd old))
  | EndWithin j => (fst new, spliced j (snd new) (snd old))
  end.
Definition event_work (st : dbhdr * shelves) (e : event) : dbhdr * shelves :=
  match e with
  | EProgram l en => end_work st l en
  | EAppend l T => (with_next (dh_next (fst st) + len l) (fst st), adjoin (snd st) (dh_next (fst st)) T)
  end.
Definition history_work (st : dbhdr * shelves) (l : list event) : dbhdr * shelves := fold_left event_work l st.
Definition end_ok (e : ending) : Prop :=
  match e with EndBefore j | EndWithin j => 1 <= j | _ => True end.
Definition event_ok (b : build) (k : dbtype) (G : N -> grade) (st : dbhdr * shelves) (e : event) : Prop :=
  match e with
  | EProgram l en => tasks_ok b k G st l /\ end_ok en
  | EAppend l T => let n := dh_next (fst st) in let ps := dh_page_size (fst st) in 1 <= n /\ n + len l < 2 ^ 32 /\ Forall (fun p => page_consistent b k ps p /\ page_writes b ps p) l /\
      (forall i p, getN l i = Some p -> graded b k ps (G (n + i)) p) /\ Forall2 like T l
  end.
Fixpoint history_ok (b : build) (k : dbtype) (G : N -> grade) (st : dbhdr * shelves) (l : list event) : Prop :=
  match l with [] => True | e :: rest => event_ok b k G st e /\ history_ok b k G (event_work st e) rest end.

(** ** Proof *)
Lemma happens_stores b k io e io' d G st : db_open io k = DOk d -> stores b d G (snd st) -> db_header d = fst st -> event_ok b k G st e -> happens b k io e io' ->
  exists d', db_open io' k = DOk d' /\ stores b d' G (snd (event_work st e)) /\ db_header d' = fst (event_work st e).
Proof.
  intros HO HS HH HA HX. destruct e as [l en|l T]; cbn [event_ok happens event_work] in *.
  - destruct HA as [HW HE]. destruct HX as (d0 & d1 & E0 & HT & HN). rewrite HO in E0. injection E0 as <-. destruct (open_pages _ _ _ HO) as (E1 & E2 & _). rewrite <- E2 in HW.
    destruct (tasks_stores b d l d1 HT G st HS HH HW) as (D1 & D2 & D3). assert (on_file b d G (fst st) (snd st)) as HD by (rewrite <- HH; split; [easy|]; split; [easy|]; exists d; now rewrite E1, E2).
    pose proof (tasks_on_file b d l d1 HT G st st HS HH HW HD) as HD1. rewrite E2 in D3. destruct en as [| |w|j|j]; cbn [ends end_work end_ok fst snd] in *.
    + destruct HN as (d2 & HF & <-). destruct (flush_stores b d1 d2 G _ D1 HF) as (d3 & O1 & O2 & O3 & O4). rewrite D3 in O1. exists d3. split; [exact O1|]. split; [exact O4|congruence].
    + subst io'. destruct HD1 as (_ & _ & d3 & O1 & O2 & O3). rewrite D3 in O1. exists d3. now split.
    + destruct HN as (HN & d0 & F1 & F2). pose proof HD1 as (_ & _ & d0' & G1 & G2 & _). rewrite F1 in G1. injection G1 as <-.
      destruct (header_cut b d1 G _ _ _ io' (db_header (if w then d1 else d0)) D1 HD1 HN) as (d3 & O1 & O2 & O3); [destruct w; [now right|now left]|exact F2|]. rewrite D3 in O1. exists d3. split; [exact O1|]. split; [exact O3|]. destruct w; congruence.
    + destruct HN as (d2 & HF & <-). pose proof (parted_stores b d1 G _ _ _ j HE D1 HD1) as HU. destruct (flush_stores b _ d2 G _ HU HF) as (d3 & O1 & O2 & O3 & O4). change (db_kind (unload_from d1 j)) with (db_kind d1) in *. change (db_header (unload_from d1 j)) with (db_header d1) in *.
      rewrite D3 in O1. exists d3. split; [exact O1|]. split; [exact O4|congruence].
    + destruct (cut_stores b d1 G _ _ _ j io' D1 HD1 HN) as (d3 & O1 & O2 & O3). rewrite D3 in O1. exists d3. split; [exact O1|]. split; [exact O3|congruence].
  - destruct HA as (A1 & A2 & A3 & A4 & A5). cbv zeta in *. cbn [fst snd]. rewrite <- HH in *. destruct (appended_stores b k io d G (snd st) l T io' HO HS A1 A2 A3 A4 A5 HX) as (d' & O1 & O2 & O3). exists d'. now split.
Qed.
Lemma history_stores b k : forall io l io', history b k io l io' -> forall d G st, db_open io k = DOk d -> stores b d G (snd st) -> db_header d = fst st -> history_ok b k G st l ->
  exists d', db_open io' k = DOk d' /\ stores b d' G (snd (history_work st l)) /\ db_header d' = fst (history_work st l).
Proof.
  intros io l io' H. induction H as [io|io e io1 l io2 HX _ IH]; intros d G st HO HS HH HA; [now exists d|]. destruct HA as [A1 A2]. destruct (happens_stores b k io e io1 d G st HO HS HH A1 HX) as (d1 & O1 & O2 & O3).
  now apply (IH d1 G (event_work st e)).
Qed.
(** ** Progress *)
Lemma saved_size b d l d1 G st : tasks b d l d1 -> stores b d G (snd st) -> db_header d = fst st -> tasks_ok b (db_kind d) G st l -> db_open (db_io d) (db_kind d) = DOk d ->
  dh_page_size (fst (tasks_saved st st l)) = dh_page_size (fst st).
Proof.
  intros HT HS HH HW HO. assert (on_file b d G (fst st) (snd st)) as HD by (rewrite <- HH; split; [easy|]; split; [easy|]; now exists d).
  pose proof (tasks_on_file b d l d1 HT G st st HS HH HW HD) as (X & _). rewrite X. destruct (tasks_stores b d l d1 HT G st HS HH HW) as (_ & D2 & _). rewrite D2. now apply (tasks_size b (db_kind d) G).
Qed.
Lemma happens_runs b k io e d G st : db_open io k = DOk d -> stores b d G (snd st) -> db_header d = fst st -> dh_page_size (fst st) <= 4096 -> event_ok b k G st e ->
  (exists io', happens b k io e io') /\ dh_page_size (fst (event_work st e)) = dh_page_size (fst st).
Proof.
  intros HO HS HH HP HA. destruct (open_pages _ _ _ HO) as (E1 & E2 & _). destruct e as [l en|l T]; cbn [event_ok happens event_work] in *.
  - destruct HA as [HW HE]. pose proof HW as HW'. rewrite <- E2 in HW'. destruct (tasks_run b G l d st HS HH HP HW') as [d1 HT]. destruct (tasks_stores b d l d1 HT G st HS HH HW') as (D1 & D2 & D3).
    pose proof (tasks_size b k G l st HW) as SZ. assert (db_open (db_io d) (db_kind d) = DOk d) as HO' by now rewrite E1, E2. pose proof (saved_size b d l d1 G st HT HS HH HW' HO') as SZ2.
    assert (on_file b d G (fst st) (snd st)) as HD by (rewrite <- HH; split; [easy|]; split; [easy|]; now exists d). pose proof (tasks_on_file b d l d1 HT G st st HS HH HW' HD) as HD1.
    split; [|destruct en as [| |w| |]; cbn [end_work fst]; try assumption; destruct w; assumption]. assert (bytes_ok (db_io d1)) as HB1 by apply D1. assert (forall j, 1 <= j -> exists d2, flush b (unload_from d1 j) = DOk d2) as HU.
    { intros j HJ. apply (stores_flush b _ G _ (parted_stores b d1 G _ _ _ j HJ D1 HD1)). }
    assert (exists io', ends b d1 en io') as [io' HN]; [|now exists io', d, d1]. destruct en as [| |w|j|j]; cbn [ends end_ok] in *.
    + destruct (stores_flush b d1 G _ D1) as [d2 HF]. now exists (db_io d2), d2.
    + now eexists.
    + pose proof HD1 as (_ & _ & d0 & G1 & G2 & G3). destruct w.
      * pose proof D1 as ((_ & _ & S2 & _) & _). destruct (flush_first b d1 S2) as (d2 & F1 & F2). pose proof (parted_stores b d1 G _ _ _ 1 ltac:(lia) D1 HD1) as HU1. destruct (flush_stores b _ d2 G _ HU1 F1) as (d3 & O1 & O2 & O3 & O4).
        change (db_kind (unload_from d1 1)) with (db_kind d1) in *. change (db_header (unload_from d1 1)) with (db_header d1) in *. destruct (open_pages _ _ _ O1) as (I1 & _).
        exists (db_io d2). split; [|exists d0; split; [exact G1|]; rewrite <- O2; now apply (open_header b _ (db_kind d1) d3 G (parted 1 (snd (tasks_work st l)) (snd (tasks_saved st st l))))].
        split; [rewrite <- I1; apply O4|]. rewrite F2. intros x HX. destruct (N.lt_ge_cases x (dh_page_size (db_header d1))) as [HL|HL].
        -- right. split; [exact HL|]. pose proof (has_write_same' (db_io d1) 0 (header_page (db_header d1)) ltac:(lia)) as W. apply has_get in W as [_ W]. rewrite len_header_page in W by easy. specialize (W x HL). now rewrite N.add_0_l in W.
        -- left. pose proof (write_segs_frame (db_io d1) [(0, header_page (db_header d1))] x HX) as Y. cbn [write_segs] in Y. apply Y. intro HE2. apply Exists_cons in HE2 as [HE2|HE2]; [|now apply Exists_nil in HE2].
           unfold seg_end in HE2. cbn [fst snd] in HE2. rewrite len_header_page in HE2 by easy. lia.
      * exists (db_io d1). split; [split; [exact HB1|]; intros x _; now left|]. exists d0. split; [exact G1|]. now apply (open_header b _ (db_kind d1) d0 G (snd (tasks_saved st st l))).
    + destruct (HU j HE) as [d2 HF]. now exists (db_io d2), d2.
    + destruct (HU j HE) as [d2 HF]. exists (db_io d2). split; [exact HE|]. split.
      * pose proof (parted_stores b d1 G _ _ _ j HE D1 HD1) as (X & _). now apply (flush_bytes b (unload_from d1 j)).
      * exists d2. now split.
  - destruct HA as (A1 & A2 & A3 & A4 & A5). cbv zeta in *. rewrite <- HH in *. split; [|reflexivity]. now apply (appended_runs b k io d G (snd st)).
Qed.
Lemma history_runs b k G : forall l io d st, db_open io k = DOk d -> stores b d G (snd st) -> db_header d = fst st -> dh_page_size (fst st) <= 4096 -> history_ok b k G st l -> exists io', history b k io l io'.
Proof.
  induction l as [|e l IH]; intros io d st HO HS HH HP HA; [exists io; constructor|]. destruct HA as [A1 A2]. destruct (happens_runs b k io e d G st HO HS HH HP A1) as [[io1 HX] SZ].
  destruct (happens_stores b k io e io1 d G st HO HS HH A1 HX) as (d1 & O1 & O2 & O3). destruct (IH io1 d1 (event_work st e) O1 O2 O3) as [io' HY]; [lia|exact A2|]. exists io'. now apply (history_cons b k io e io1).
Qed.

(** ** Pages and tables that are left alone *)
Definition act_spares (q : list N) (P : rkind -> list N) (a : act) : Prop :=
  match a with
  | AInsert j _ | AAssign j _ | ADelete j _ => ~ In j q
  | AAssignAll k _ => forall j, In j (P k) -> ~ In j q
  | ASave => True
  end.
Definition table_of (t : ptype) (h : dbhdr) : option table := option_map snd (find_table t h).
Definition task_spares (q : list N) (t : ptype) (a : task) : Prop :=
  match a with
  | TActs P l => Forall (act_spares q P) l
  | TLabel j _ _ => ~ In j q
  | THeader f => forall h, table_of t (f h) = table_of t h
  end.
Definition event_spares (q : list N) (t : ptype) (e : event) : Prop :=
  match e with EProgram l en => Forall (task_spares q t) l /\ (match en with EndWithin j => ~ In j q | _ => True end) | EAppend _ _ => True end.
Lemma put_other A j s q : ~ In j q -> forall i, In i q -> put A j s i = A i.
Proof. intros HJ i Hi. unfold put. destruct (i =? j) eqn:E; [|easy]. assert (i = j) as -> by lia. easy. Qed.
Lemma revise_all_other f q : forall l c A, (forall j, In j l -> ~ In j q) -> forall i, In i q -> revise_all f l c A i = A i.
Proof.
  induction l as [|j l IH]; intros c A H i Hi; [easy|]. cbn [revise_all]. assert (forall x, In x l -> ~ In x q) as H' by (intros x Hx; apply H; now right). destruct (A j) as [s|]; [|easy]. rewrite (IH _ _ H' i Hi). apply (put_other A j _ q); [apply H; now left|easy].
Qed.
Lemma act_spared q P A a : act_spares q P a -> forall i, In i q -> act_work P A a i = A i.
Proof.
  intros H i Hi. destruct a as [j ops|j f|r f|j n|]; cbn [act_spares act_work] in *.
  - unfold work1. cbn [fst snd]. destruct (i =? j) eqn:E; [|easy]. assert (i = j) as -> by lia. easy.
  - destruct (A j); [now apply (put_other A j _ q)|easy].
  - now apply (revise_all_other f q).
  - destruct (A j); [now apply (put_other A j _ q)|easy].
  - easy.
Qed.
Lemma acts_spared q P : forall l A A0 B, Forall (act_spares q P) l -> (forall i, In i q -> A i = B i) -> (forall i, In i q -> A0 i = B i) ->
  (forall i, In i q -> acts_work P A l i = B i) /\ (forall i, In i q -> snd (fold_left (saved_step P) l (A, A0)) i = B i).
Proof.
  induction l as [|a l IH]; intros A A0 B H HA H0; [easy|]. inversion H as [|? ? H1 H2]; subst. assert (forall i, In i q -> act_work P A a i = B i) as HW by (intros i Hi; rewrite (act_spared q) by easy; now apply HA).
  unfold acts_work. cbn [fold_left]. unfold saved_step at 2. cbn [fst snd]. apply IH; [easy|exact HW|]. destruct a; easy.
Qed.
Lemma tasks_spared q t x (B : shelves) : forall l (st sv : dbhdr * shelves), Forall (task_spares q t) l -> (forall i, In i q -> snd st i = B i) -> (forall i, In i q -> snd sv i = B i) -> table_of t (fst st) = x -> table_of t (fst sv) = x ->
  (forall i, In i q -> snd (tasks_work st l) i = B i) /\ (forall i, In i q -> snd (tasks_saved st sv l) i = B i) /\ table_of t (fst (tasks_work st l)) = x /\ table_of t (fst (tasks_saved st sv l)) = x.
Proof.
  induction l as [|a l IH]; intros st sv H HA H0 T1 T2; [easy|]. inversion H as [|? ? H1 H2]; subst. change (tasks_work st (a :: l)) with (tasks_work (task_work st a) l). cbn [tasks_saved].
  destruct a as [P acts|j n t'|f]; cbn [task_spares] in H1.
  - destruct (acts_spared q P acts (snd st) (snd sv) B H1 HA H0) as [X1 X2]. apply IH; cbn [task_work task_saved fst snd]; try easy. now destruct (saves acts).
  - apply IH; cbn [task_work task_saved fst snd]; try easy. intros i Hi. rewrite <- (HA i Hi). destruct (snd st j) as [s|]; [|easy]. now apply (put_other (snd st) j _ q).
  - apply IH; cbn [task_work task_saved fst snd]; try easy.
Qed.
Lemma event_spared q t b k G st e : event_spares q t e -> event_ok b k G st e -> (forall i, In i q -> i < dh_next (fst st)) ->
  (forall i, In i q -> snd (event_work st e) i = snd st i) /\ table_of t (fst (event_work st e)) = table_of t (fst st).
Proof.
  intros H HA HQ. destruct e as [l en|l T]; cbn [event_spares event_work] in *.
  - destruct H as [H HE]. destruct (tasks_spared q t (table_of t (fst st)) (snd st) l st st H) as (X1 & X2 & X3 & X4); try easy. destruct en as [| |w|j|j]; cbn [end_work fst snd].
    + easy.
    + easy.
    + split; [easy|]. now destruct w.
    + split; [|easy]. intros i Hi. unfold parted. destruct (i <? j); [now apply X1|now apply X2].
    + split; [|easy]. intros i Hi. unfold spliced. destruct (i <? j); [now apply X1|]. destruct (i =? j) eqn:E; [|now apply X2]. assert (i = j) as -> by lia. easy.
  - cbn [fst snd]. split; [|reflexivity]. intros i Hi. unfold adjoin. specialize (HQ i Hi). now replace (i <? dh_next (fst st)) with true by lia.
Qed.
Lemma history_spared q t b k : forall io l io', history b k io l io' -> forall d G st, db_open io k = DOk d -> stores b d G (snd st) -> db_header d = fst st -> history_ok b k G st l ->
  Forall (event_spares q t) l -> (forall i, In i q -> exists s, snd st i = Some s) ->
  (forall i, In i q -> snd (history_work st l) i = snd st i) /\ table_of t (fst (history_work st l)) = table_of t (fst st).
Proof.
  intros io l io' H. induction H as [io|io e io1 l io2 HX _ IH]; intros d G st HO HS HH HA HF HQ; [easy|]. destruct HA as [A1 A2]. inversion HF as [|? ? F1 F2]; subst.
  destruct (happens_stores b k io e io1 d G st HO HS HH A1 HX) as (d1 & O1 & O2 & O3). destruct (event_spared q t b k G st e F1 A1) as [Y1 Y2].
  { intros i Hi. destruct (HQ i Hi) as [s E]. destruct HS as (_ & _ & Z). destruct (Z i s E) as (p & PZ & _). apply page_of_range in PZ as [P1 P2]. destruct (open_pages _ _ _ HO) as (_ & _ & D3 & _). rewrite <- HH. lia. }
  destruct (IH d1 G (event_work st e) O1 O2 O3 A2 F2) as [Z1 Z2]; [intros i Hi; rewrite Y1 by easy; now apply HQ|]. change (history_work st (e :: l)) with (history_work (event_work st e) l). split; [intros i Hi; now rewrite Z1, Y1|congruence].
Qed.
