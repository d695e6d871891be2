(** * Programs that change the headers: links between pages, types of pages, tables *)
From Coq Require Import NArith ZArith List Bool Lia.
From Coq Require Import ZifyBool ZifyNat ZifyN.
From Verif Require Import Base BaseFacts Segs Str StrFacts StrGood Schema SchemaFacts Oa OaFacts OaSpec Rows RowFacts RowSpec Page BitFacts PageFacts PageRw PageSpec IndexSpec Alloc AllocFacts AllocSpec Db DbFacts DbFlush DbFresh Reread Progress Insert Session Revise.
Import ListNotations.
Open Scope N_scope.

(** ** Model *)
(** Assigning [next_page] and [page_type] of a page header; the fields are public (src/pdb/mod.rs:502-536), the page comes from [load_page]. *)
Definition relabel (n : N) (t : ptype) (p : page) : page :=
  let h := pg_header p in mk_page (mk_phdr (ph_index h) t n (ph_unknown1 h) (ph_unknown2 h) (ph_counts h) (ph_flags h) (ph_free h) (ph_used h)) (pg_content p).
(** [get_header_mut] (src/pdb/io.rs:195-197) *)
Definition with_header (d : database) (h : dbhdr) : database := mk_db (db_io d) (db_kind d) h (db_pages d).
(** Assigning [last_page] of what [find_table_mut] (mod.rs:241-247) gives: the first table with this type. *)
Fixpoint set_last_in (t : ptype) (m : N) (l : list table) : list table :=
  match l with
  | [] => []
  | x :: rest => if ptype_eqb (tb_type x) t then mk_table (tb_type x) (tb_empty x) (tb_first x) m :: rest else x :: set_last_in t m rest
  end.
Definition set_last (t : ptype) (m : N) (h : dbhdr) : dbhdr := mk_dbhdr (dh_page_size h) (dh_num h) (dh_next h) (dh_unknown h) (dh_seq h) (set_last_in t m (dh_tables h)).
(** What programs do: the acts of Revise.v, assignments to a page header, assignments to the header.  [P] has no influence on the run; it says which pages the tables have. *)
Inductive task : Type :=
| TActs (P : rkind -> list N) (l : list act)
| TLabel (j n : N) (t : ptype)
| THeader (f : dbhdr -> dbhdr).
Inductive performs (b : build) (d : database) : task -> database -> Prop :=
| performs_acts P l d1 : acts b d l d1 -> performs b d (TActs P l) d1
| performs_label j n t d1 p : load_page b d j = (d1, DOk p) -> performs b d (TLabel j n t) (set_page d1 j (relabel n t p))
| performs_header f : performs b d (THeader f) (with_header d (f (db_header d))).
Inductive tasks (b : build) : database -> list task -> database -> Prop :=
| tasks_nil d : tasks b d [] d
| tasks_cons d a d1 l d2 : performs b d a d1 -> tasks b d1 l d2 -> tasks b d (a :: l) d2.
Definition job (b : build) (k : dbtype) (io : list N) (l : list task) (io' : list N) : Prop :=
  exists d d1 d2, db_open io k = DOk d /\ tasks b d l d1 /\ flush b d1 = DOk d2 /\ db_io d2 = io'.
Inductive jobs (b : build) (k : dbtype) : list N -> list (list task) -> list N -> Prop :=
| jobs_nil io : jobs b k io [] io
| jobs_cons io l io1 ls io2 : job b k io l io1 -> jobs b k io1 ls io2 -> jobs b k io (l :: ls) io2.

(** ** Spec *)
Definition relabelled (n : N) (t : ptype) (s : shelf) : shelf := mk_shelf t n (sh_free s) (sh_slots s) (sh_rows s).
Definition task_work (st : dbhdr * shelves) (a : task) : dbhdr * shelves :=
  match a with
  | TActs P l => (fst st, acts_work P (snd st) l)
  | TLabel j n t => (fst st, match snd st j with Some s => put (snd st) j (relabelled n t s) | None => snd st end)
  | THeader f => (f (fst st), snd st)
  end.
Definition tasks_work (st : dbhdr * shelves) (l : list task) : dbhdr * shelves := fold_left task_work l st.
(** A shelf may get another type if it is empty; the header must keep the size and the number of pages, and must fit in a page. *)
Definition task_ok (b : build) (k : dbtype) (G : N -> grade) (st : dbhdr * shelves) (a : task) : Prop :=
  match a with
  | TActs P l => acts_ok b (fst st) G P (snd st) l
  | TLabel j n t => exists s, snd st j = Some s /\ G j <> GAny /\ is_u32 n /\ ptype_ok k t /\ (t = sh_type s \/ sh_rows s = [])
  | THeader f => let h := f (fst st) in dbhdr_ok k h /\ dh_page_size h = dh_page_size (fst st) /\ dh_next h = dh_next (fst st) /\ 28 + 16 * len (dh_tables h) <= dh_page_size h
  end.
Fixpoint tasks_ok (b : build) (k : dbtype) (G : N -> grade) (st : dbhdr * shelves) (l : list task) : Prop :=
  match l with [] => True | a :: rest => task_ok b k G st a /\ tasks_ok b k G (task_work st a) rest end.

(** ** Pages *)
Lemma relabel_sound b db ps g n t p s : page_consistent b db ps p -> page_writes b ps p -> graded b db ps g p -> like s p -> is_u32 n -> ptype_ok db t -> t = sh_type s \/ sh_rows s = [] ->
  page_consistent b db ps (relabel n t p) /\ page_writes b ps (relabel n t p) /\ graded b db ps g (relabel n t p) /\ like (relabelled n t s) (relabel n t p).
Proof.
  intros HC HW HG (L1 & L2 & L3 & L4 & L5) HN HT HS.
  assert (forall h, phdr_ok db h -> phdr_ok db (mk_phdr (ph_index h) t n (ph_unknown1 h) (ph_unknown2 h) (ph_counts h) (ph_flags h) (ph_free h) (ph_used h))) as HH.
  { intros h (A1 & A2 & A3 & A4). unfold phdr_ok. cbn [ph_index ph_type ph_next ph_unknown1 ph_unknown2 ph_counts ph_flags ph_free ph_used]. now repeat (split; [easy|]). }
  assert (like (relabelled n t s) (relabel n t p)) as HL by (unfold like; cbn; now repeat (split; [easy|])).
  destruct p as [h [c|c]]; unfold page_consistent, page_writes, relabel in *; cbn [pg_content pg_header] in *.
  - destruct HC as [HO HT2]. assert (dpage_ok dstr_good db ps (mk_phdr (ph_index h) t n (ph_unknown1 h) (ph_unknown2 h) (ph_counts h) (ph_flags h) (ph_free h) (ph_used h)) c) as HO'.
    { destruct HO as (P1 & P2 & P3 & P4 & P5 & P6 & P7 & P8 & P9 & P10 & P11). unfold dpage_ok. cbn [ph_index ph_type ph_next ph_unknown1 ph_unknown2 ph_counts ph_flags ph_free ph_used].
      do 10 (split; [try apply HH; easy|]). destruct HS as [->|HS]; [now rewrite <- L1|]. rewrite HS in L5. cbn [rows_of_page pg_content] in L5. destruct (dc_rows c) as [|x rows]; [constructor|]. cbn [map] in L5. inversion L5. }
    split; [now split|]. split; [exact HW|]. split; [|exact HL]. destruct g; [exact I|now split|]. cbn [graded] in *. destruct HG as [(h0 & c0 & E & HA) _]. injection E as <- <-. split; [|exact HW].
    eexists _, _. split; [reflexivity|]. destruct HA as (A1 & A2 & A3 & A4 & A5 & A6). split; [exact HO'|]. now repeat (split; [easy|]).
  - destruct HC as (P1 & P2 & P3). assert (phdr_ok db (mk_phdr (ph_index h) t n (ph_unknown1 h) (ph_unknown2 h) (ph_counts h) (ph_flags h) (ph_free h) (ph_used h))) as HP by now apply HH.
    split; [now split|]. split; [exact HW|]. split; [|exact HL]. destruct g; [exact I|now split|]. cbn [graded] in HG. destruct HG as [(h0 & c0 & E & _) _]. discriminate.
Qed.
(** ** Databases *)
Lemma label_stores b d G A j n t s d1 q : stores b d G A -> A j = Some s -> G j <> GAny -> is_u32 n -> ptype_ok (db_kind d) t -> t = sh_type s \/ sh_rows s = [] -> page_of b d j q -> loaded d d1 j q ->
  let d2 := set_page d1 j (relabel n t q) in
  stores b d2 G (put A j (relabelled n t s)) /\ db_header d2 = db_header d /\ db_kind d2 = db_kind d.
Proof.
  intros HS EA HN H1 H2 H3 HP HL. destruct (stores_sound b d G A j s q HS EA HN HP) as (S1 & S2 & S3 & S4). destruct (relabel_sound b _ _ (G j) n t q s S1 S2 S3 S4 H1 H2 H3) as (T1 & T2 & T3 & T4).
  cbv zeta. now apply (change_stores b d G A j s (relabelled n t s) d1 q).
Qed.
Lemma header_work_stores b d G A h : stores b d G A -> dbhdr_ok (db_kind d) h -> dh_page_size h = dh_page_size (db_header d) -> dh_next h = dh_next (db_header d) -> 28 + 16 * len (dh_tables h) <= dh_page_size h ->
  stores b (with_header d h) G A.
Proof.
  intros (HS & HW & HA) H1 H2 H3 H4. pose proof HS as (S0 & S1 & S2 & S3 & S4). split; [|split].
  - unfold savable, with_header. cbn [db_io db_kind db_header db_pages]. rewrite H2, H3. repeat (split; [easy|]). split; [lia|]. now split.
  - unfold with_header. cbn [db_pages db_header]. now rewrite H2.
  - intros i s E. destruct (HA i s E) as (p & P1 & P2 & P3). exists p. split; [|split; [|exact P3]].
    + unfold page_of, read_page, with_header in *. cbn [db_io db_kind db_header db_pages]. now rewrite H2.
    + unfold kept_page, in_memory, self_contained, with_header in *. cbn [db_io db_kind db_header db_pages]. now rewrite H2.
Qed.
Lemma performs_stores b d a d' G st : stores b d G (snd st) -> db_header d = fst st -> task_ok b (db_kind d) G st a -> performs b d a d' ->
  stores b d' G (snd (task_work st a)) /\ db_header d' = fst (task_work st a) /\ db_kind d' = db_kind d.
Proof.
  intros HS HH HA HD. destruct HD as [P l d1 HL|j n t d1 p HL|f]; cbn [task_ok task_work fst snd] in *.
  - rewrite <- HH in HA. destruct (acts_stores b d l d1 HL G P _ HS HA) as (T1 & T2 & T3). rewrite <- HH. now split.
  - destruct HA as (s & E & HG & H1 & H2 & H3). rewrite E, <- HH. destruct (proj2 (proj2 HS) j s E) as (q & HPO & _). pose proof (load_of b d j q HPO) as EL. rewrite HL in EL. injection EL as <-.
    apply (label_stores b d G (snd st) j n t s d1 p); try easy. pose proof (page_of_range b d j p HPO) as [HJ _]. now apply load_effect in HL as [HLD _].
  - rewrite HH. destruct HA as (H1 & H2 & H3 & H4). split; [|easy]. apply header_work_stores; [exact HS|exact H1|rewrite HH; exact H2|rewrite HH; exact H3|exact H4].
Qed.
Lemma tasks_stores b : forall d l d', tasks b d l d' -> forall G st, stores b d G (snd st) -> db_header d = fst st -> tasks_ok b (db_kind d) G st l ->
  stores b d' G (snd (tasks_work st l)) /\ db_header d' = fst (tasks_work st l) /\ db_kind d' = db_kind d.
Proof.
  intros d l d' H. induction H as [d|d a d1 l d2 HD _ IH]; intros G st HS HH HA; [easy|]. cbn [tasks_ok] in HA. destruct HA as [A1 A2]. destruct (performs_stores b d a d1 G st HS HH A1 HD) as (S1 & S2 & S3).
  destruct (IH G (task_work st a) S1 S2) as (T1 & T2 & T3); [now rewrite S3|]. split; [exact T1|]. split; [exact T2|]. congruence.
Qed.
Lemma job_stores b k io l io' d G st : db_open io k = DOk d -> stores b d G (snd st) -> db_header d = fst st -> tasks_ok b k G st l -> job b k io l io' ->
  exists d', db_open io' k = DOk d' /\ db_header d' = fst (tasks_work st l) /\ stores b d' G (snd (tasks_work st l)).
Proof.
  intros HO HS HH HA (d0 & d1 & d2 & E0 & HE & HF & <-). rewrite HO in E0. injection E0 as <-. pose proof (open_kind io k d HO) as HK. rewrite <- HK in HA. destruct (tasks_stores b d l d1 HE G st HS HH HA) as (S1 & S2 & S3).
  destruct (flush_stores b d1 d2 G _ S1 HF) as (d3 & F1 & F2 & F3 & F4). exists d3. rewrite S3, HK in F1. split; [easy|]. split; [congruence|easy].
Qed.
Lemma tasks_ok_app b k G : forall l st l', tasks_ok b k G st (l ++ l') <-> tasks_ok b k G st l /\ tasks_ok b k G (tasks_work st l) l'.
Proof. induction l as [|a l IH]; intros st l'; cbn [app tasks_ok]; [cbn; tauto|]. rewrite IH. change (tasks_work st (a :: l)) with (tasks_work (task_work st a) l). tauto. Qed.
Lemma tasks_work_app st l l' : tasks_work st (l ++ l') = tasks_work (tasks_work st l) l'.
Proof. unfold tasks_work. apply fold_left_app. Qed.
Lemma jobs_stores b k : forall io ls io', jobs b k io ls io' -> forall d G st, db_open io k = DOk d -> stores b d G (snd st) -> db_header d = fst st -> tasks_ok b k G st (concat ls) ->
  exists d', db_open io' k = DOk d' /\ db_header d' = fst (tasks_work st (concat ls)) /\ stores b d' G (snd (tasks_work st (concat ls))).
Proof.
  intros io ls io' H. induction H as [io|io l io1 ls io2 HS1 _ IH]; intros d G st HO HS HH HA; [now exists d|]. cbn [concat] in HA |- *. apply tasks_ok_app in HA as [A1 A2].
  destruct (job_stores b k io l io1 d G st HO HS HH A1 HS1) as (d1 & O1 & O2 & O3). destruct (IH d1 G (tasks_work st l) O1 O3 O2 A2) as (d' & P1 & P2 & P3).
  exists d'. now rewrite tasks_work_app.
Qed.
(** ** Progress *)
Lemma task_runs b d G st a : stores b d G (snd st) -> db_header d = fst st -> dh_page_size (fst st) <= 4096 -> task_ok b (db_kind d) G st a -> exists d', performs b d a d'.
Proof.
  intros HS HH HP HA. destruct a as [P l|j n t|f]; cbn [task_ok] in HA.
  - rewrite <- HH in HA, HP. destruct (acts_run b G P l d _ HS HP HA) as [d1 H1]. exists d1. now constructor.
  - destruct HA as (s & E & _). destruct (proj2 (proj2 HS) j s E) as (q & HPO & _). pose proof (load_of b d j q HPO) as EL. destruct (load_page b d j) as [d1 r] eqn:EL1. cbn [snd] in EL. subst r.
    eexists. now apply (performs_label b d j n t d1 q).
  - eexists. constructor.
Qed.
Lemma tasks_size b k G : forall l st, tasks_ok b k G st l -> dh_page_size (fst (tasks_work st l)) = dh_page_size (fst st).
Proof.
  induction l as [|a l IH]; intros st H; [easy|]. destruct H as [H1 H2]. change (tasks_work st (a :: l)) with (tasks_work (task_work st a) l). rewrite IH by easy. destruct a; cbn [task_work fst task_ok] in *; easy.
Qed.
Lemma tasks_run b G : forall l d st, stores b d G (snd st) -> db_header d = fst st -> dh_page_size (fst st) <= 4096 -> tasks_ok b (db_kind d) G st l -> exists d', tasks b d l d'.
Proof.
  induction l as [|a l IH]; intros d st HS HH HP HA; [exists d; constructor|]. destruct HA as [A1 A2]. destruct (task_runs b d G st a HS HH HP A1) as [d1 HD].
  destruct (performs_stores b d a d1 G st HS HH A1 HD) as (S1 & S2 & S3). pose proof (tasks_size b (db_kind d) G [a] st (conj A1 I)) as X. cbn in X.
  destruct (IH d1 (task_work st a) S1 S2) as [d2 H2]; [lia|now rewrite S3|]. exists d2. now apply (tasks_cons b d a d1).
Qed.
Lemma jobs_run b k G : forall ls io d st, db_open io k = DOk d -> stores b d G (snd st) -> db_header d = fst st -> dh_page_size (fst st) <= 4096 -> tasks_ok b k G st (concat ls) -> exists io', jobs b k io ls io'.
Proof.
  induction ls as [|l ls IH]; intros io d st HO HS HH HP HA; [exists io; constructor|]. cbn [concat] in HA. apply tasks_ok_app in HA as [A1 A2]. pose proof (open_kind io k d HO) as HK. pose proof A1 as A1'. rewrite <- HK in A1'.
  destruct (tasks_run b G l d st HS HH HP A1') as [d1 HE]. destruct (tasks_stores b d l d1 HE G st HS HH A1') as (S1 & _). destruct (stores_flush b d1 G _ S1) as [d2 HF].
  assert (job b k io l (db_io d2)) as HJ by (exists d, d1, d2; now repeat (split; [easy|])). destruct (job_stores b k io l _ d G st HO HS HH A1 HJ) as (d3 & O1 & O2 & O3). pose proof (tasks_size b k G l st A1) as X.
  destruct (IH (db_io d2) d3 (tasks_work st l) O1 O3 O2) as [io2 H2]; [lia|exact A2|]. exists io2. now apply (jobs_cons b k io l (db_io d2)).
Qed.
