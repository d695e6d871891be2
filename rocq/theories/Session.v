(** * Programs that open a database, insert rows, save it, and open it again *)
From Coq Require Import NArith ZArith List Bool Lia.
From Coq Require Import ZifyBool ZifyNat ZifyN.
From Verif Require Import Base BaseFacts Segs Str StrFacts StrGood Schema SchemaFacts Oa OaFacts OaSpec Rows RowFacts RowSpec Page BitFacts PageFacts PageRw PageSpec IndexSpec Alloc AllocFacts AllocSpec Db DbFacts DbFlush DbFresh Reread Progress Insert.
Import ListNotations.
Open Scope N_scope.
Ltac Zify.zify_post_hook ::= Z.div_mod_to_equations.

(** ** Programs *)
(** What a program does between opening and saving: it loads pages and allocates and inserts rows in them.  An entry [(j, ops)]
    is [load_page(j)], followed by the operations [ops] on the page, see Alloc.v. *)
Definition edit : Type := N * list (N * option row).
Inductive edits (b : build) : database -> list edit -> database -> Prop :=
| edits_nil d : edits b d [] d
| edits_cons d d1 j p ops p' es d2 :
    load_page b d j = (d1, DOk p) -> run b ops p = Ok p' -> edits b (set_page d1 j p') es d2 -> edits b d ((j, ops) :: es) d2.
(** A program run: open the file, change pages, save. *)
Definition session (b : build) (k : dbtype) (io : list N) (es : list edit) (io' : list N) : Prop :=
  exists d d1 d2, db_open io k = DOk d /\ edits b d es d1 /\ flush b d1 = DOk d2 /\ db_io d2 = io'.
Inductive sessions (b : build) (k : dbtype) : list N -> list (list edit) -> list N -> Prop :=
| sessions_nil io : sessions b k io [] io
| sessions_cons io es io1 ess io2 : session b k io es io1 -> sessions b k io1 ess io2 -> sessions b k io (es :: ess) io2.

(** ** Spec: shelves *)
(** A shelf has a type, the number of the next shelf, free space, a number of used slots, and rows. *)
Record shelf : Type := mk_shelf { sh_type : ptype; sh_next : N; sh_free : N; sh_slots : N; sh_rows : list row }.
(** Reserving [n] bytes: [n] is rounded up to a multiple of 4, a slot costs 2 bytes, and 4 bytes more for every 16 slots.  A request
    is refused if there is no room for the bytes and 6 more. *)
Definition place (s : shelf) (op : N * option row) : shelf :=
  let size := (fst op + 3) / 4 * 4 in
  if sh_free s <? size + 6 then s
  else mk_shelf (sh_type s) (sh_next s) (sh_free s - size - 2 - (if sh_slots s mod 16 =? 0 then 4 else 0)) (sh_slots s + 1)
         (sh_rows s ++ match snd op with Some r => [r] | None => [] end).
Definition places (ops : list (N * option row)) (s : shelf) : shelf := fold_left place ops s.
(** The shelves of a database. *)
Definition shelves : Type := N -> option shelf.
Definition work1 (A : shelves) (e : edit) : shelves := fun i => if i =? fst e then option_map (places (snd e)) (A i) else A i.
Definition work (es : list edit) (A : shelves) : shelves := fold_left work1 es A.
(** The shelves from [i] to [last]. *)
Inductive path (A : shelves) (last : N) : N -> list N -> Prop :=
| path_last s : A last = Some s -> path A last last [last]
| path_step i s l : i <> last -> A i = Some s -> i < sh_next s -> path A last (sh_next s) l -> path A last i (i :: l).
Definition shelf_rows (A : shelves) (i : N) : list row := match A i with Some s => sh_rows s | None => [] end.

(** A page is a shelf. *)
Definition like (s : shelf) (p : page) : Prop :=
  ph_type (pg_header p) = sh_type s /\ ph_next (pg_header p) = sh_next s /\ ph_free (pg_header p) = sh_free s /\ c_rows (ph_counts (pg_header p)) = sh_slots s /\
  Forall2 same_values (sh_rows s) (rows_of_page p).
(** The database has these shelves; [G] says which pages may be written and changed. *)
Definition stores (b : build) (d : database) (G : N -> grade) (A : shelves) : Prop :=
  savable b d /\ (forall k p, getN (db_pages d) k = Some (Some p) -> page_writes b (dh_page_size (db_header d)) p) /\ forall i s, A i = Some s -> exists p, page_of b d i p /\ kept_page b d (G i) i p /\ like s p.
(** Operations whose rows can be written and fit the type of the page and the size that is asked for. *)
Definition op_fine (b : build) (pt : ptype) (op : N * option row) : Prop :=
  op_ok b dstr_good pt op /\ match snd op with Some r => row_writes b r | None => True end.
(** Changes that are allowed: pages may be loaded if they may be written; rows may be inserted in pages of their type. *)
Definition allowed1 (b : build) (G : N -> grade) (A : shelves) (e : edit) : Prop :=
  exists s, A (fst e) = Some s /\
    ((G (fst e) <> GAny /\ snd e = []) \/ (G (fst e) = GGrow /\ Forall (op_fine b (sh_type s)) (snd e))).
Definition allowed (b : build) (G : N -> grade) (A : shelves) (es : list edit) : Prop := Forall (allowed1 b G A) es.

(** ** One page *)
Lemma place_page b db ps h c n r p' s : alloc_ok b dstr_good db ps h c -> op_fine b (ph_type h) (n, r) -> step b n r (mk_page h (PData c)) = Ok p' ->
  like s (mk_page h (PData c)) -> exists h' c', p' = mk_page h' (PData c') /\ alloc_ok b dstr_good db ps h' c' /\ (page_writes b ps (mk_page h (PData c)) -> page_writes b ps p') /\ like (place s (n, r)) p'.
Proof.
  intros HA [HO HWR] HS HL. cbn [snd] in HWR. pose proof (step_ok b dstr_good db ps h c n r p' HA HO HS) as (h' & c' & new & -> & HA' & HX & HN). exists h', c'. split; [easy|]. split; [easy|].
  destruct HX as (h0 & c0 & h1 & c1 & E1 & E2 & SR & _ & ER & _). injection E1 as <- <-. injection E2 as <- <-.
  split. { unfold page_writes. cbn [pg_content]. intro HW. rewrite ER. apply Forall_app. split; [exact HW|]. clear - HN HWR. apply Forall_forall. intros x Hx. apply (in_map snd) in Hx. rewrite HN in Hx. cbv beta iota in Hx.
    destruct r as [r|]; [|destruct Hx]. destruct (ph_free h <? up4 n + 6); [destruct Hx|]. destruct Hx as [<-|[]]. exact HWR. } destruct SR as (R1 & R2 & R3 & _).
  destruct HL as (L1 & L2 & L3 & L4 & L5). cbn [pg_header rows_of_page pg_content] in *. unfold place. cbn [fst snd]. replace ((n + 3) / 4 * 4) with (up4 n) by (unfold up4; apply N.mul_comm). rewrite <- L3.
  assert (ph_free h <? up4 n + 6 = true \/ (ph_free h <? up4 n + 6 = false /\ ph_used h' = ph_used h + up4 n /\ c_rows (ph_counts h') = c_rows (ph_counts h) + 1)) as HC.
  { destruct HO as [HB HR]. cbn [fst snd] in HB, HR. destruct (ph_free h <? up4 n + 6) eqn:EF; [now left|right]. split; [easy|].
    unfold step in HS. destruct (alloc_row b n (mk_page h (PData c))) as [[p1 t]| |] eqn:EA; try easy. cbn [res_bind] in HS.
    pose proof HA as ((P1 & P2 & P3 & P4 & P5 & P6 & P7 & _) & H0 & H1 & _). destruct (alloc_eq b n h c HB) as (gs & E & _); [lia|easy|easy|]. rewrite EA, EF in E.
    destruct t as [t|]; [|destruct (8191 <=? c_rows (ph_counts h)); easy]. destruct r as [r|].
    - destruct (insert_row_ok b dstr_good db ps h c n p1 t r _ HA HB HR EA HS) as (h2 & gs' & E2 & _ & _ & HC & HU). injection E2 as -> ->. rewrite HC. now split.
    - destruct (alloc_row_ok b dstr_good db ps h c n p1 t HA HB EA) as (h1 & gs1 & E1 & _ & _ & HC1 & HU1 & _). injection HS as ->. injection E1 as -> ->. rewrite HC1. now split. }
  destruct HC as [HC|(HC & HU & HS1)]; rewrite HC in *.
  - assert (mk_page h' (PData c') = mk_page h (PData c)) as E.
    { unfold step in HS. destruct HO as [HB HR]. cbn [fst] in HB. pose proof HA as ((P1 & P2 & P3 & P4 & P5 & P6 & P7 & _) & H0 & H1 & _).
      destruct (alloc_eq b n h c HB) as (gs & E & _); [lia|easy|easy|]. rewrite E, HC in HS. cbn [res_bind] in HS. destruct r; congruence. }
    rewrite E. repeat (split; [easy|]). exact L5.
  - unfold like. cbn [sh_type sh_next sh_free sh_slots sh_rows pg_header]. split; [congruence|]. split; [congruence|]. split; [|split; [congruence|]].
    + destruct HA as (_ & _ & A3 & _), HA' as (_ & _ & A3' & _). unfold footer_space, num_row_groups in *. rewrite HU, HS1 in A3'. rewrite <- L4. 
      destruct (c_rows (ph_counts h) mod 16 =? 0) eqn:E; clear - A3 A3' HC E; lia.
    + cbn [rows_of_page pg_content]. rewrite ER, map_app, HN. apply Forall2_app; [easy|]. destruct r; [|constructor]. constructor; [apply same_values_refl|constructor].
Qed.
Lemma place_type s op : sh_type (place s op) = sh_type s /\ sh_next (place s op) = sh_next s.
Proof. unfold place. now destruct (sh_free s <? (fst op + 3) / 4 * 4 + 6). Qed.
Lemma places_type ops : forall s, sh_type (places ops s) = sh_type s /\ sh_next (places ops s) = sh_next s.
Proof.
  induction ops as [|op ops IH]; intro s; [easy|]. change (places (op :: ops) s) with (places ops (place s op)). destruct (IH (place s op)) as [-> ->]. apply place_type.
Qed.
Lemma places_page b db ps : forall ops h c p' s, alloc_ok b dstr_good db ps h c -> Forall (op_fine b (ph_type h)) ops -> run b ops (mk_page h (PData c)) = Ok p' ->
  like s (mk_page h (PData c)) -> exists h' c', p' = mk_page h' (PData c') /\ alloc_ok b dstr_good db ps h' c' /\ (page_writes b ps (mk_page h (PData c)) -> page_writes b ps p') /\ like (places ops s) p'.
Proof.
  induction ops as [|[n r] ops IH]; intros h c p' s HA HF HR HL.
  - injection HR as <-. now exists h, c.
  - inversion HF as [|? ? HO HF']; subst. cbn [run] in HR. destruct (step b n r (mk_page h (PData c))) as [p1| |] eqn:ES; try easy. cbn [res_bind] in HR.
    destruct (place_page b db ps h c n r p1 s HA HO ES HL) as (h1 & c1 & -> & HA1 & HW1 & HL1). change (places ((n, r) :: ops) s) with (places ops (place s (n, r))).
    destruct (IH h1 c1 p' (place s (n, r))) as (h' & c' & EP & HA' & HW' & HL'); try easy; [|exists h', c'; split; [easy|split; [easy|split; [tauto|easy]]]]. pose proof HL1 as (T1 & _). cbn [pg_header] in T1. rewrite T1. destruct (place_type s (n, r)) as [-> _]. destruct HL as (T2 & _). cbn [pg_header] in T2. now rewrite <- T2.
Qed.
Lemma grow_consistent b db ps p : can_grow b db ps p -> page_consistent b db ps p.
Proof. intros (h & c & -> & HA). unfold page_consistent. cbn [pg_content pg_header]. split; [apply HA|now apply (alloc_ok_tidy _ _ _ _ _ _ HA)]. Qed.

(** ** Loading and changing one page *)
Lemma like_kept s p q : like s p -> page_kept p q -> like s q.
Proof.
  intros (L1 & L2 & L3 & L4 & L5) HK. pose proof (kept_rows p q HK) as HR. destruct HK as [HK _]. unfold like. rewrite HK. repeat (split; [easy|]).
  eapply Forall2_comp; [|exact L5|exact HR]. exact same_values_trans.
Qed.
Lemma page_of_range b d i p : page_of b d i p -> 1 <= i /\ i - 1 < len (db_pages d).
Proof. intros [H1 [H2|[H2 _]]]; apply getN_Some_lt in H2; easy. Qed.
Lemma load_of b d i p : page_of b d i p -> snd (load_page b d i) = DOk p.
Proof.
  intro HP. pose proof (page_of_range b d i p HP) as [H1 H2]. rewrite load_page_present by lia. destruct HP as [_ [->|[-> HP]]]; easy.
Qed.
Lemma contained_graded b d g i p q : savable b d -> self_contained b d g i p -> page_of b d i q -> page_kept p q /\ graded b (db_kind d) (dh_page_size (db_header d)) g q.
Proof.
  intros HS (C1 & C2 & C3) HP. destruct HP as [_ [HP|[_ HP]]]; [congruence|]. destruct HS as (S0 & S1 & S2 & S3 & _). destruct S1 as (P1 & _ & P3 & _). unfold is_u32 in *.
  apply getN_Some_lt in C2. rewrite read_page_eq in HP by (lia || easy). destruct (C3 (db_io d) S0) as (p2 & z & R & K & G); [easy|]. rewrite R in HP. now injection HP as <-.
Qed.
Lemma stores_ext b d G A A' : (forall i, A i = A' i) -> stores b d G A -> stores b d G A'.
Proof. intros HE (H1 & H2 & H3). split; [exact H1|]. split; [exact H2|]. intros i s E. apply H3. now rewrite HE. Qed.
(** A page that may be written is sound. *)
Lemma stores_sound b d G A j s q : stores b d G A -> A j = Some s -> G j <> GAny -> page_of b d j q ->
  let db := db_kind d in let ps := dh_page_size (db_header d) in page_consistent b db ps q /\ page_writes b ps q /\ graded b db ps (G j) q /\ like s q.
Proof.
  intros (HS & HW & HA) EA HN HPQ. cbv zeta. destruct (HA j s EA) as (q' & HPO & HKP & HLK). assert (q' = q) as -> by (now apply (page_of_fun b d j)).
  set (db := db_kind d) in *. set (ps := dh_page_size (db_header d)) in *.
  assert (graded b db ps (G j) q) as HG.
  { destruct HKP as [[_ HG]|HC]; [exact HG|]. now apply (contained_graded b d (G j) j q q HS HC). }
  split; [|split; [|split; [exact HG|exact HLK]]].
  - destruct (G j); [easy|apply HG|destruct HG as [HG _]; now apply grow_consistent].
  - destruct (G j); [easy|apply HG|apply HG].
Qed.
(** Replacing a page that may be written by a sound one. *)
Lemma change_stores b d G A j s s' d1 q p' : stores b d G A -> A j = Some s -> G j <> GAny -> page_of b d j q -> loaded d d1 j q ->
  let db := db_kind d in let ps := dh_page_size (db_header d) in page_consistent b db ps p' -> page_writes b ps p' -> graded b db ps (G j) p' -> like s' p' ->
  stores b (set_page d1 j p') G (fun i => if i =? j then Some s' else A i) /\ db_header (set_page d1 j p') = db_header d /\ db_kind (set_page d1 j p') = db_kind d.
Proof.
  intros HST EA HN HPO HLD db ps HC' HW' HG' HL'. destruct (stores_sound b d G A j s q HST EA HN HPO) as (HCQ & HWQ & HG & HLK). fold db ps in HCQ, HWQ, HG. destruct HST as (HS & HW & HA).
  pose proof (page_of_range b d j q HPO) as [HJ HJ2]. pose proof HLD as (D1 & D2 & D3 & D4 & D5).
  assert (in_memory d1 j q) as HM by (split; [easy|]; rewrite D5, N.eqb_refl; easy).
  assert (savable b d1) as HS1.
  { destruct HS as (S0 & S1 & S2 & S3 & S4). unfold savable. rewrite D1, D2, D3, D4. repeat (split; [easy|]). intros k x. rewrite D5. destruct (k =? j - 1); [intros [= <-]; exact HCQ|apply S4]. }
  split; [|split; [exact D3|exact D2]]. split; [|split].
  2:{ intros k x. change (db_header (set_page d1 j p')) with (db_header d1). rewrite D3. rewrite (getN_set_page d1 j q p') by easy. destruct (k =? j - 1) eqn:EK; [intros [= <-]; exact HW'|]. rewrite D5, EK. apply HW. }
  { apply (set_page_savable b d1 j q); try easy. rewrite D2, D3. exact HC'. }
  intros i t EI. destruct (i =? j) eqn:EIJ.
  - assert (i = j) as -> by lia. injection EI as <-. exists p'.
    assert (in_memory (set_page d1 j p') j p') as HM' by (split; [easy|]; rewrite (getN_set_page d1 j q p') by easy; now rewrite N.eqb_refl).
    split; [destruct HM' as [_ HM']; split; [easy|now left]|]. split; [|easy]. left. split; [easy|]. change (db_kind (set_page d1 j p')) with (db_kind d1). change (db_header (set_page d1 j p')) with (db_header d1). rewrite D2, D3. exact HG'.
  - destruct (HA i t EI) as (x & X1 & X2 & X3). exists x. split; [|split; [|easy]].
    + assert (page_of b d1 i x) as X1' by (apply (page_of_loaded b d d1 j q); easy). pose proof (set_page_of b d1 j q i x p' HM X1') as Y. now rewrite EIJ in Y.
    + apply (set_page_others b d1 j q p' (G i) i x HM); [lia|]. assert (getN (db_pages d1) (i - 1) = getN (db_pages d) (i - 1)) as EG.
      { rewrite D5. pose proof (page_of_range b d i x X1) as [Y1 _]. now replace (i - 1 =? j - 1) with false by lia. }
      destruct X2 as [[[Y1 Y2] Y3]|(Y1 & Y2 & Y3)]; [left|right].
      * rewrite D2, D3. split; [|exact Y3]. split; [easy|now rewrite EG].
      * unfold self_contained. rewrite D1, D2, D3, EG. now split.
Qed.
Lemma edit_stores b d G A j ops d1 p p' : stores b d G A -> allowed1 b G A (j, ops) -> load_page b d j = (d1, DOk p) -> run b ops p = Ok p' ->
  stores b (set_page d1 j p') G (work1 A (j, ops)) /\ db_header (set_page d1 j p') = db_header d /\ db_kind (set_page d1 j p') = db_kind d.
Proof.
  intros HST (s & EA & HOP) HL HR. cbn [fst snd] in *. assert (G j <> GAny) as HN by (destruct HOP as [[HN _]|[HN _]]; [easy|now rewrite HN]).
  assert (page_of b d j p) as HPO. { destruct HST as (_ & _ & HA). destruct (HA j s EA) as (q & HPO & _). pose proof (load_of b d j q HPO) as E. rewrite HL in E. now injection E as ->. }
  destruct (stores_sound b d G A j s p HST EA HN HPO) as (HCQ & HWQ & HG & HLK). pose proof (page_of_range b d j p HPO) as [HJ _]. apply load_effect in HL as [HLD _]; [|easy].
  set (db := db_kind d) in *. set (ps := dh_page_size (db_header d)) in *.
  assert (page_consistent b db ps p' /\ page_writes b ps p' /\ graded b db ps (G j) p' /\ like (places ops s) p') as (HC' & HW' & HG' & HL').
  { destruct HOP as [[_ ->]|[HN' HOP]]; [injection HR as <-; split; [exact HCQ|split; [exact HWQ|split; [exact HG|exact HLK]]]|]. rewrite HN' in HG |- *. destruct HG as [(h & c & -> & HAL) _].
    destruct (places_page b db ps ops h c p' s HAL) as (h' & c' & -> & HA' & HW' & HL'); try easy; [destruct HLK as (T & _); cbn [pg_header] in T; now rewrite T|].
    assert (can_grow b db ps (mk_page h' (PData c'))) as HGR by (now exists h', c'). split; [now apply grow_consistent|]. split; [now apply HW'|]. split; [split; [exact HGR|now apply HW']|exact HL']. }
  destruct (change_stores b d G A j s (places ops s) d1 p p' HST EA HN HPO HLD HC' HW' HG' HL') as (S1 & S2 & S3). split; [|now split].
  eapply stores_ext; [|exact S1]. intro i. cbv beta. unfold work1. cbn [fst snd]. destruct (i =? j) eqn:E; [|easy]. assert (i = j) as -> by lia. now rewrite EA.
Qed.
Lemma allowed_work1 b G A e e0 : allowed1 b G A e -> allowed1 b G (work1 A e0) e.
Proof.
  intros (s & E & H). unfold allowed1, work1. destruct (fst e =? fst e0) eqn:EQ; [|now exists s]. rewrite E. cbn [option_map]. exists (places (snd e0) s). split; [easy|].
  now destruct (places_type (snd e0) s) as [-> _].
Qed.
Lemma allowed_work b G es0 : forall A es, allowed b G A es -> allowed b G (work es0 A) es.
Proof.
  induction es0 as [|e0 es0 IH]; intros A es H; [easy|]. apply (IH (work1 A e0)). eapply Forall_impl; [|exact H]. intros e. apply allowed_work1.
Qed.
Lemma edits_stores b G : forall d es d', edits b d es d' -> forall A, stores b d G A -> allowed b G A es ->
  stores b d' G (work es A) /\ db_header d' = db_header d /\ db_kind d' = db_kind d.
Proof.
  intros d es d' H. induction H as [d|d d1 j p ops p' es d2 HL HR HE IH]; intros A HS HA; [easy|]. inversion HA as [|? ? A1 A2]; subst.
  destruct (edit_stores b d G A j ops d1 p p' HS A1 HL HR) as (S1 & S2 & S3). destruct (IH (work1 A (j, ops)) S1) as (T1 & T2 & T3).
  { eapply Forall_impl; [|exact A2]. intros e. apply allowed_work1. }
  split; [exact T1|]. split; congruence.
Qed.
(** ** Saving *)
Lemma flush_stores b d d' G A : stores b d G A -> flush b d = DOk d' -> exists d2, db_open (db_io d') (db_kind d) = DOk d2 /\ db_header d2 = db_header d /\ db_kind d2 = db_kind d /\ stores b d2 G A.
Proof.
  intros (HS & HW & HA) HF. destruct (reopen_page b d d' HS HF) as (d2 & O1 & O2 & O3 & O4 & O5). exists d2. split; [exact O1|]. split; [exact O2|]. split; [exact O3|]. split; [exact O4|]. split; [|intros i s E].
  { intros k p HK. exfalso. unfold db_open in O1. destruct (rd_dbhdr (db_kind d) (db_io d') 0) as [[h q]| |]; try easy. injection O1 as <-. cbn [db_pages] in HK.
    assert (In (Some p) (repeat None (N.to_nat (dh_next h - 1)))) as X by (apply in_getN; now exists k). now apply repeat_spec in X. }
  destruct (HA i s E) as (p & P1 & P2 & P3). destruct (O5 (G i) i p P2) as (q & Q1 & Q2 & Q3 & _). exists q. split; [easy|]. split; [now right|]. now apply (like_kept s p q).
Qed.
Lemma open_kind io k d : db_open io k = DOk d -> db_kind d = k.
Proof. unfold db_open. destruct (rd_dbhdr k io 0) as [[h q]| |]; try easy. now intros [= <-]. Qed.
Lemma session_stores b k io es io' d G A : db_open io k = DOk d -> stores b d G A -> allowed b G A es -> session b k io es io' ->
  exists d', db_open io' k = DOk d' /\ db_header d' = db_header d /\ stores b d' G (work es A).
Proof.
  intros HO HS HA (d0 & d1 & d2 & E0 & HE & HF & <-). rewrite HO in E0. injection E0 as <-. destruct (edits_stores b G d es d1 HE A HS HA) as (S1 & S2 & S3).
  destruct (flush_stores b d1 d2 G (work es A) S1 HF) as (d3 & F1 & F2 & F3 & F4). exists d3. rewrite S3, (open_kind io k d HO) in F1. split; [easy|]. split; [congruence|easy].
Qed.
Lemma sessions_stores b k : forall io ess io', sessions b k io ess io' -> forall d G A, db_open io k = DOk d -> stores b d G A -> allowed b G A (concat ess) ->
  exists d', db_open io' k = DOk d' /\ db_header d' = db_header d /\ stores b d' G (work (concat ess) A).
Proof.
  intros io ess io' H. induction H as [io|io es io1 ess io2 HS1 _ IH]; intros d G A HO HS HA; [now exists d|]. cbn [concat] in HA |- *. unfold allowed in HA. apply Forall_app in HA as [A1 A2].
  destruct (session_stores b k io es io1 d G A HO HS A1 HS1) as (d1 & O1 & O2 & O3). destruct (IH d1 G (work es A) O1 O3) as (d' & P1 & P2 & P3); [now apply allowed_work|].
  exists d'. split; [easy|]. split; [congruence|]. unfold work in *. now rewrite fold_left_app.
Qed.

(** ** What the row iterator shows *)
Lemma path_work es : forall A last i l, path A last i l -> path (work es A) last i l.
Proof.
  induction es as [|e es IH]; intros A last i l H; [easy|]. apply (IH (work1 A e)). clear IH. induction H as [s E|i s l NE E HI HP IH].
  - destruct (last =? fst e) eqn:EQ; [apply (path_last _ _ (places (snd e) s))|apply (path_last _ _ s)]; unfold work1; rewrite EQ; [now rewrite E|easy].
  - destruct (i =? fst e) eqn:EQ.
    + destruct (places_type (snd e) s) as [_ EN]. rewrite <- EN in HI, IH. apply (path_step _ _ i (places (snd e) s)); try easy. unfold work1. rewrite EQ. now rewrite E.
    + apply (path_step _ _ i s); try easy. unfold work1. now rewrite EQ.
Qed.
Lemma path_linked b d G A last i l : stores b d G A -> path A last i l -> exists pl, linked b d last i pl /\ map fst pl = l /\ Forall2 same_values (flat_map (shelf_rows A) l) (rows_of pl).
Proof.
  intros (_ & _ & HS) H. induction H as [s E|i s l NE E HI HP IH].
  - destruct (HS last s E) as (p & P1 & _ & P3). exists [(last, p)]. split; [now constructor|]. split; [easy|]. unfold shelf_rows. cbn [flat_map rows_of snd]. rewrite E, !app_nil_r. apply P3.
  - destruct IH as (pl & L1 & L2 & L3). destruct (HS i s E) as (p & P1 & _ & P3). exists ((i, p) :: pl). assert (ph_next (pg_header p) = sh_next s) as EN by apply P3.
    split; [constructor; try easy; [now rewrite EN|now rewrite EN]|]. split; [cbn [map fst]; now rewrite L2|]. cbn [flat_map rows_of snd]. apply Forall2_app; [|exact L3]. unfold shelf_rows. rewrite E. apply P3.
Qed.
Lemma stores_rows b d G A k i t l : stores b d G A -> find_table (PT k) (db_header d) = Some (i, t) -> path A (tb_last t) (tb_first t) l ->
  forallb (is_variant k) (flat_map (shelf_rows A) l) = true ->
  exists rows, snd (iter_rows b k d) = Some (DOk rows) /\ Forall2 same_values (flat_map (shelf_rows A) l) rows.
Proof.
  intros HS HT HP HV. destruct (path_linked b d G A _ _ _ HS HP) as (pl & L1 & _ & L3). exists (rows_of pl). split; [|easy]. apply iter_rows_iff. exists i, t, pl. repeat (split; [easy|]).
  now rewrite (same_variants k _ _ L3).
Qed.
(** The number of rows on a shelf never falls, and old rows stay in front. *)
Lemma places_prefix ops : forall s, exists new, sh_rows (places ops s) = sh_rows s ++ new.
Proof.
  induction ops as [|op ops IH]; intro s; [exists []; now rewrite app_nil_r|]. change (places (op :: ops) s) with (places ops (place s op)). destruct (IH (place s op)) as (new & ->).
  unfold place. destruct (sh_free s <? (fst op + 3) / 4 * 4 + 6); [now exists new|]. cbn [sh_rows]. rewrite <- app_assoc. eexists. reflexivity.
Qed.
(** If there is room for all rows, all are placed. *)
Definition need (op : N * option row) : N := (fst op + 3) / 4 * 4 + 6.
Lemma places_all ops : forall s, fold_right N.add 0 (map need ops) <= sh_free s ->
  sh_rows (places ops s) = sh_rows s ++ flat_map (fun op => match snd op with Some r => [r] | None => [] end) ops.
Proof.
  induction ops as [|op ops IH]; intros s H; [cbn; now rewrite app_nil_r|]. change (places (op :: ops) s) with (places ops (place s op)). cbn [map fold_right flat_map] in *. unfold need in H at 1.
  assert (place s op = mk_shelf (sh_type s) (sh_next s) (sh_free s - (fst op + 3) / 4 * 4 - 2 - (if sh_slots s mod 16 =? 0 then 4 else 0)) (sh_slots s + 1)
         (sh_rows s ++ match snd op with Some r => [r] | None => [] end)) as E.
  { unfold place. now replace (sh_free s <? (fst op + 3) / 4 * 4 + 6) with false by (clear - H; lia). }
  rewrite IH.
  - rewrite E. cbn [sh_rows]. now rewrite <- app_assoc.
  - rewrite E. cbn [sh_free]. clear - H. destruct (sh_slots s mod 16 =? 0); lia.
Qed.
(** ** Progress *)
(** Pages can be loaded and rows inserted without panics, as long as the page size is at most 4096. *)
Lemma edit_runs b d G A j ops : stores b d G A -> dh_page_size (db_header d) <= 4096 -> allowed1 b G A (j, ops) ->
  exists d1 p p', load_page b d j = (d1, DOk p) /\ run b ops p = Ok p'.
Proof.
  intros (HS & HW & HA) HP (s & EA & HOP). cbn [fst snd] in *. destruct (HA j s EA) as (q & HPO & HKP & HLK). pose proof (load_of b d j q HPO) as E. destruct (load_page b d j) as [d1 r] eqn:EL. cbn [snd] in E. subst r.
  exists d1, q. destruct HOP as [[_ ->]|[HN HOP]]; [now exists q|].
  assert (graded b (db_kind d) (dh_page_size (db_header d)) (G j) q) as HG.
  { destruct HKP as [[_ HG]|HC]; [exact HG|]. now apply (contained_graded b d (G j) j q q HS HC). }
  rewrite HN in HG. destruct HG as [(h & c & -> & HAL) _]. destruct (run_no_panic b dstr_good (db_kind d) (dh_page_size (db_header d)) ops h c HAL HP) as (p' & E); [|now exists p'].
  destruct HLK as (T & _). cbn [pg_header] in T. rewrite T. eapply Forall_impl; [|exact HOP]. now intros op [].
Qed.
Lemma edits_run b G : forall es d A, stores b d G A -> dh_page_size (db_header d) <= 4096 -> allowed b G A es -> exists d', edits b d es d'.
Proof.
  induction es as [|[j ops] es IH]; intros d A HS HP HA; [exists d; constructor|]. inversion HA as [|? ? A1 A2]; subst. destruct (edit_runs b d G A j ops HS HP A1) as (d1 & p & p' & HL & HR).
  destruct (edit_stores b d G A j ops d1 p p' HS A1 HL HR) as (S1 & S2 & _). destruct (IH (set_page d1 j p') (work1 A (j, ops))) as [d' HE]; [easy|now rewrite S2| |].
  - eapply Forall_impl; [|exact A2]. intros e. apply allowed_work1.
  - exists d'. now apply (edits_cons b d d1 j p ops p').
Qed.
Lemma stores_flush b d G A : stores b d G A -> exists d', flush b d = DOk d'.
Proof. intros ((_ & _ & _ & _ & H1) & H2 & _). apply flush_ok. intros k p HK. split; [now apply (H1 k)|now apply (H2 k)]. Qed.
Lemma session_runs b k io es d G A : db_open io k = DOk d -> stores b d G A -> dh_page_size (db_header d) <= 4096 -> allowed b G A es -> exists io', session b k io es io'.
Proof.
  intros HO HS HP HA. destruct (edits_run b G es d A HS HP HA) as [d1 HE]. destruct (edits_stores b G d es d1 HE A HS HA) as (S1 & _). destruct (stores_flush b d1 G _ S1) as [d2 HF].
  exists (db_io d2), d, d1, d2. repeat (split; [easy|]). easy.
Qed.
Lemma sessions_run b k G : forall ess io d A, db_open io k = DOk d -> stores b d G A -> dh_page_size (db_header d) <= 4096 -> allowed b G A (concat ess) -> exists io', sessions b k io ess io'.
Proof.
  induction ess as [|es ess IH]; intros io d A HO HS HP HA; [exists io; constructor|]. cbn [concat] in HA. unfold allowed in HA. apply Forall_app in HA as [A1 A2].
  destruct (session_runs b k io es d G A HO HS HP A1) as [io1 H1]. destruct (session_stores b k io es io1 d G A HO HS A1 H1) as (d1 & O1 & O2 & O3).
  destruct (IH io1 d1 (work es A) O1 O3) as [io2 H2]; [now rewrite O2|now apply allowed_work|]. exists io2. now apply (sessions_cons b k io es io1).
Qed.

(** ** Files that were just opened *)
(** Page [i] of the file reads as [p], with all strings stored as they are written (see [c23]), and is consistent. *)
Definition good_page (b : build) (d : database) (g : grade) (i : N) (p : page) : Prop :=
  let ps := dh_page_size (db_header d) in
  1 <= i /\ i < dh_next (db_header d) /\ page_consistent b (db_kind d) ps p /\ page_writes b ps p /\ (g = GGrow -> can_grow b (db_kind d) ps p) /\
  exists z, rd_page b (rd_dstr_strict b) ps (db_kind d) (db_io d) (i * ps) = Ok (p, z).
Lemma good_contained b d g i p : bytes_ok (db_io d) -> len (db_io d) < 2 ^ 64 - 1 -> getN (db_pages d) (i - 1) = Some None -> good_page b d g i p -> self_contained b d g i p.
Proof.
  intros HB HL HU (H1 & _ & HC & HW & HG & z & HR). unfold self_contained. split; [easy|]. split; [easy|]. set (ps := dh_page_size (db_header d)) in *. intros io HBI HIO.
  assert (forall q, page_consistent b (db_kind d) ps q -> page_writes b ps q -> (can_grow b (db_kind d) ps p -> can_grow b (db_kind d) ps q) -> graded b (db_kind d) ps g q) as HGR.
  { intros q Q1 Q2 Q3. destruct g; cbn [graded]; [easy|now split|]. split; [|easy]. now apply Q3, HG. }
  assert (i * ps <= len (db_io d)) as HPL by (apply (rd_page_pos _ _ _ _ _ _ _ _ HB HR)).
  destruct p as [h [c|c]].
  - assert (40 <= ps /\ ps < 2 ^ 32) as [P1 P2] by (destruct HC as [(P1 & P2 & _) _]; now split).
    apply (dpage_rw b _ dstr_parsed) in HR as (_ & _ & _ & l & HE & HS); try easy; [|now apply rd_dstr_strict_rw].
    assert (page_pieces b ps (i * ps) (mk_page h (PData c)) l) as HP by (unfold page_pieces; cbn [pg_content pg_header]; now exists (dc_rows c)).
    destruct (consistent_pieces _ _ _ _ _ _ HC HP) as [_ HNE]. destruct (page_write_ok b (db_kind d) ps _ [] (i * ps) HC HW) as [s HS2].
    pose proof (consistent_inside _ _ _ _ HC) as HI. destruct (page_write_pieces b _ ps _ _ _ _ HI HS2) as (l' & HP' & _ & HWI).
    assert (l' = l) as ->. { unfold page_pieces in HP'. cbn [pg_content pg_header] in HP'. destruct HP' as [rows' HP']. congruence. }
    assert (segs_in io l) as HSI by (apply (segs_in_frame (db_io d) io (i * ps) ((i + 1) * ps)); try easy; now replace ((i + 1) * ps) with (i * ps + ps) by lia).
    destruct (reread_page b (db_kind d) ps (i * ps) _ l io HC HP HBI HSI) as (q & z' & R & Q1 & Q2 & Q3). exists q, z'. split; [easy|]. split; [now apply (reads_kept b)|].
    apply HGR; [easy| |easy]. now apply (reread_writes b (db_kind d) ps (i * ps) (mk_page h (PData c)) l io q z').
  - pose proof HC as (C1 & C2 & C3 & C4 & C5 & C6 & C7). cbn [pg_header] in *. apply (ipage_rw b) in HR as (_ & _ & _ & _ & _ & _ & hb & ib & E1 & E2 & HH); try easy.
    destruct (ipage_write_eq (db_kind d) b ps h c [] (i * ps) C6 C1 C3) as (hb' & ib' & E1' & L1 & E2' & L2 & _). assert (hb' = hb) by congruence. assert (ib' = ib) by congruence. subst hb' ib'.
    assert (segs_in io [(i * ps, hb ++ ib ++ flat_map (le_enc 4) (ic_entries c))]) as HSI.
    { apply (segs_in_frame (db_io d) io (i * ps) ((i + 1) * ps)); try easy.
      - constructor; [exact HH|constructor].
      - constructor; [|constructor]. unfold seg_end. cbn [fst snd]. rewrite !len_app, len_flat4, L1, L2. unfold page_writes in HW. cbn [pg_content] in HW. unfold len in *. clear - HW C5 C6 C7. lia.
      - constructor; [|constructor]. cbn [snd]. intro E. apply (f_equal len) in E. rewrite len_app, L1, (@len_nil N) in E. lia. }
    inversion HSI as [|? ? HSI' _]; subst. cbn [fst snd] in HSI'. exists (mk_page h (PIndex c)). eexists. split; [apply (ipage_wr b (rd_dstr b) (db_kind d) ps h c hb ib); easy|].
    split; [apply page_kept_refl|]. now apply HGR.
Qed.
Lemma open_stores b io k d G A : bytes_ok io -> len io < 2 ^ 64 - 1 -> db_open io k = DOk d -> 28 + 16 * len (dh_tables (db_header d)) <= dh_page_size (db_header d) ->
  (forall i s, A i = Some s -> exists p, good_page b d (G i) i p /\ like s p) -> stores b d G A.
Proof.
  intros HB HL HO HP HA. pose proof HO as HO'. unfold db_open in HO'. destruct (rd_dbhdr k io 0) as [[h q]| |] eqn:ER; try easy. apply dbhdr_rw in ER as (HH & _); [|easy]. 
  assert (db_io d = io /\ db_kind d = k /\ db_header d = h /\ db_pages d = repeat None (N.to_nat (dh_next h - 1))) as (D1 & D2 & D3 & D4) by (now injection HO' as <-). clear HO'.
  assert (forall j x, getN (db_pages d) j = Some x -> x = None) as HN.
  { intros j x HJ. assert (In x (db_pages d)) as X by (apply in_getN; now exists j). rewrite D4 in X. now apply repeat_spec in X. }
  assert (len (db_pages d) = dh_next h - 1) as HLP by (rewrite D4; unfold len; rewrite repeat_length; lia).
  split; [|split].
  - unfold savable. rewrite D1, D2, D3, HLP. rewrite D3 in HP. split; [easy|]. split; [exact HH|]. split; [exact HP|]. split; [easy|]. intros j p HJ. apply HN in HJ. discriminate.
  - intros j p HJ. apply HN in HJ. discriminate.
  - intros i s E. destruct (HA i s E) as (p & HG & HLK). pose proof HG as (G1 & G2 & G3 & G4 & G5 & z & G6). rewrite D3 in G2. destruct (getN_lt_Some (db_pages d) (i - 1)) as [x HX]; [lia|].
    pose proof (HN _ _ HX) as ->. exists p. split; [|split; [right; apply good_contained; now rewrite ?D1|easy]]. split; [easy|]. right. split; [easy|].
    destruct HH as (P1 & _ & P3 & _). unfold is_u32 in *. rewrite read_page_eq by (easy || rewrite ?D3; lia). now rewrite (page_strict_le _ _ _ _ _ _ G6).
Qed.
