(** * Which database files open, which tables of them can be read, and what their rows say *)
From Coq Require Import NArith ZArith List Bool Lia Sorted.
From Coq Require Import ZifyBool ZifyNat ZifyN.
From Verif Require Import Base BaseFacts Str StrFacts Schema SchemaFacts Oa OaFacts Rows RowFacts Page PageFacts PageRw AllocFacts Db DbFacts DbFlush DbFresh Layout LayoutDb Insert AcceptStr AcceptPage.
Import ListNotations.
Open Scope N_scope.

(** ** The spec: bytes at positions of the file *)
(** The header and the list of tables. *)
Definition opens (io : list N) : Prop := number io 0 4 = Some 0 /\ number io 24 4 = Some 0 /\ exists n, number io 8 4 = Some n /\ 28 + 16 * n <= len io.
(** Page [i]: inside of the number of pages that the header says, and a page is stored at its place. *)
Definition page_at (b : build) (db : dbtype) (io : list N) (ps i : N) : Prop := exists lim fin, number io 12 4 = Some lim /\ 1 <= i < lim /\ page_in b ps db io (i * ps) fin.
(** The pages of a chain, from some page up to [last]; the numbers of the pages grow. *)
Inductive pages_from (b : build) (db : dbtype) (io : list N) (ps last : N) : N -> list N -> Prop :=
| pages_last : page_at b db io ps last -> pages_from b db io ps last last [last]
| pages_step i j l : i <> last -> page_at b db io ps i -> number io (i * ps + 12) 4 = Some j -> i < j -> pages_from b db io ps last j l -> pages_from b db io ps last i (i :: l).
(** The first table for rows of kind [k] goes from page [first] to page [last]. *)
Definition table_at (db : dbtype) (io : list N) (k : rkind) (first last : N) : Prop := exists n t x,
  number io 8 4 = Some n /\ t < n /\ number io (28 + 16 * t) 4 = Some x /\ In (x, k) (page_types db) /\ number io (36 + 16 * t) 4 = Some first /\ number io (40 + 16 * t) 4 = Some last /\
  forall t' x', t' < t -> number io (28 + 16 * t') 4 = Some x' -> ~ In (x', k) (page_types db).
(** The rows of the page at [pos], in the order of their offsets: none in an index page; in a data page, the rows at the offsets marked as present.  If there are any, the page must be
    of the type of the table. *)
Definition rows_in (b : build) (db : dbtype) (io : list N) (ps : N) (k : rkind) (pos : N) (xs : list (list N * list dstr)) : Prop := exists f,
  getN io (pos + 27) = Some f /\
  if N.testbit f 6 then xs = [] else exists c os, number io (pos + 24) 3 = Some c /\
    StronglySorted N.lt os /\ (forall o, In o os <-> present_at io (pos + ps) ((c mod 8192 + 15) / 16) o) /\
    (os = [] \/ exists t, number io (pos + 8) 4 = Some t /\ In (t, k) (page_types db)) /\
    Forall2 (fun o x => exists q, row_in b k io (pos + 40 + o) (fst x) (snd x) q) os xs.
(** The rows of the table for [k]. *)
Definition table_says (b : build) (db : dbtype) (io : list N) (ps : N) (k : rkind) (xs : list (list N * list dstr)) : Prop := exists first last l xss,
  table_at db io k first last /\ pages_from b db io ps last first l /\ Forall2 (fun i ys => rows_in b db io ps k (i * ps) ys) l xss /\ xs = concat xss.

(** ** Opening *)
Lemma table_total db buf pos : pos + 16 <= len buf -> exists t, rd_table db buf pos = Ok (t, pos + 16).
Proof.
  intro H. unfold rd_table, rd_ptype, bind, ret. destruct (number_le_total 4 buf pos) as [x1 X1]; [lia|]. destruct (number_le_total 4 buf (pos + 4)) as [x2 X2]; [lia|]. destruct (number_le_total 4 buf (pos + 8)) as [x3 X3]; [lia|]. destruct (number_le_total 4 buf (pos + 12)) as [x4 X4]; [lia|].
  rewrite (rd_le_at_total 4 buf pos x1 ltac:(discriminate) X1). change (N.of_nat 4) with 4. rewrite (rd_le_at_total 4 buf (pos + 4) x2 ltac:(discriminate) X2). change (N.of_nat 4) with 4. replace (pos + 4 + 4) with (pos + 8) by lia.
  rewrite (rd_le_at_total 4 buf (pos + 8) x3 ltac:(discriminate) X3). change (N.of_nat 4) with 4. replace (pos + 8 + 4) with (pos + 12) by lia. rewrite (rd_le_at_total 4 buf (pos + 12) x4 ltac:(discriminate) X4). change (N.of_nat 4) with 4. replace (pos + 12 + 4) with (pos + 16) by lia. eauto.
Qed.
Lemma tables_total db buf : forall n pos, pos + 16 * N.of_nat n <= len buf -> exists ts, rd_count n (rd_table db) buf pos = Ok (ts, pos + 16 * N.of_nat n).
Proof.
  induction n as [|n IH]; intros pos H; cbn [rd_count]; [unfold ret; exists []; f_equal; f_equal; lia|]. unfold bind. destruct (table_total db buf pos) as [t T]; [lia|]. rewrite T. destruct (IH (pos + 16)) as [ts TS]; [lia|]. rewrite TS. unfold ret. eexists. f_equal. f_equal. lia.
Qed.
Lemma magic_total n m buf pos : n <> 0%nat -> number buf pos n = Some m -> magic_le n m buf pos = Ok (tt, pos + N.of_nat n).
Proof. intros HN H. unfold magic_le, bind. rewrite (rd_le_at_total n buf pos m HN H). rewrite N.eqb_refl. reflexivity. Qed.
Lemma open_exact io k : (exists d, db_open io k = DOk d) <-> opens io.
Proof.
  split.
  - intros [d H]. pose proof (open_layout io k d H) as (H0 & _ & H8 & _ & _ & _ & H24 & HN & HT). split; [exact H0|]. split; [exact H24|]. exists (dh_num (db_header d)). split; [exact H8|].
    destruct (N.eq_dec (dh_num (db_header d)) 0) as [Z|Z]; [apply number_len in H24; [lia|discriminate]|].
    destruct (getN_lt_Some (dh_tables (db_header d)) (dh_num (db_header d) - 1)) as [t T]; [lia|]. apply HT in T as (_ & _ & _ & T). apply number_len in T; [lia|discriminate].
  - intros (H0 & H24 & n & H8 & HL). unfold db_open, rd_dbhdr, bind. rewrite (magic_total 4 0 io 0 ltac:(discriminate) H0). change (0 + N.of_nat 4) with 4.
    destruct (number_le_total 4 io 4) as [x4 X4]; [lia|]. rewrite (rd_le_at_total 4 io 4 x4 ltac:(discriminate) X4). change (4 + N.of_nat 4) with 8. rewrite (rd_le_at_total 4 io 8 n ltac:(discriminate) H8). change (8 + N.of_nat 4) with 12.
    destruct (number_le_total 4 io 12) as [x12 X12]; [lia|]. rewrite (rd_le_at_total 4 io 12 x12 ltac:(discriminate) X12). change (12 + N.of_nat 4) with 16. destruct (number_le_total 4 io 16) as [x16 X16]; [lia|]. rewrite (rd_le_at_total 4 io 16 x16 ltac:(discriminate) X16). change (16 + N.of_nat 4) with 20.
    destruct (number_le_total 4 io 20) as [x20 X20]; [lia|]. rewrite (rd_le_at_total 4 io 20 x20 ltac:(discriminate) X20). change (20 + N.of_nat 4) with 24. rewrite (magic_total 4 0 io 24 ltac:(discriminate) H24). change (24 + N.of_nat 4) with 28.
    destruct (tables_total k io (N.to_nat n) 28) as [ts TS]; [lia|]. rewrite TS. unfold ret. eauto.
Qed.

(** ** Pages *)
Lemma fresh_layout b io k d : fresh b io k d -> tables_layout k io (db_header d).
Proof. intros (_ & _ & (q & H) & _). now apply dbhdr_layout in H. Qed.
Lemma fresh_page b io k d i p : bytes_ok io -> fresh b io k d -> (page_of b d i p <-> 1 <= i < dh_next (db_header d) /\ exists fin, rd_page b (rd_dstr b) (dh_page_size (db_header d)) k io (i * dh_page_size (db_header d)) = Ok (p, fin)).
Proof.
  intros HB F. pose proof (fresh_layout b io k d F) as (_ & T1 & _ & T2 & _). apply (number_lt _ HB) in T1, T2. change (256 ^ N.of_nat 4) with (2 ^ 32) in *. destruct F as (F1 & F2 & _ & F4 & F5).
  assert (i < dh_next (db_header d) -> (read_page b d i = DOk p <-> exists fin, rd_page b (rd_dstr b) (dh_page_size (db_header d)) k io (i * dh_page_size (db_header d)) = Ok (p, fin))) as HR.
  { intro HI. rewrite read_page_eq by lia. rewrite F1, F2. destruct (rd_page _ _ _ _ _ _) as [[p' fin]| |]; split; intro H; try discriminate; try (destruct H; discriminate); [exists fin; congruence|destruct H; congruence]. }
  split.
  - intro H. pose proof (page_of_range b d i p H) as R. split; [lia|]. apply HR; [lia|]. destruct H as [_ [H|[_ H]]]; [|exact H]. apply F5 in H. now replace (i - 1 + 1) with i in H by lia.
  - intros [R H]. split; [lia|]. apply HR in H; [|lia]. destruct (getN_lt_Some (db_pages d) (i - 1)) as [[q|] E]; [lia| |right; now split]. left. rewrite E. apply F5 in E. replace (i - 1 + 1) with i in E by lia. congruence.
Qed.
Lemma fresh_page_at b io k d i : bytes_ok io -> len io < 2 ^ 64 -> fresh b io k d -> 40 <= dh_page_size (db_header d) -> ((exists p, page_of b d i p) <-> page_at b k io (dh_page_size (db_header d)) i).
Proof.
  intros HB HL F HP. pose proof (fresh_layout b io k d F) as (_ & _ & _ & T & _). split.
  - intros [p H]. apply (fresh_page b io k d i p HB F) in H as [R [fin H]]. exists (dh_next (db_header d)), fin. split; [exact T|]. split; [exact R|]. apply page_exact; [exact HB|exact HL|exact HP|]. eauto.
  - intros (lim & fin & E & R & H). assert (lim = dh_next (db_header d)) as -> by congruence. apply page_exact in H as [p H]; [|exact HB|exact HL|exact HP]. exists p. apply (fresh_page b io k d i p HB F). split; [exact R|]. eauto.
Qed.
Lemma fresh_next b io k d i p : bytes_ok io -> fresh b io k d -> 40 <= dh_page_size (db_header d) -> page_of b d i p -> number io (i * dh_page_size (db_header d) + 12) 4 = Some (ph_next (pg_header p)).
Proof. intros HB F HP H. apply (fresh_page b io k d i p HB F) in H as [_ [fin H]]. apply page_layout in H as [(_ & _ & _ & H & _) _]; assumption. Qed.
Lemma linked_exact b io k d last : bytes_ok io -> len io < 2 ^ 64 -> fresh b io k d -> 40 <= dh_page_size (db_header d) ->
  forall is i, (exists l, linked b d last i l /\ map fst l = is) <-> pages_from b k io (dh_page_size (db_header d)) last i is.
Proof.
  intros HB HL F HP is i. split.
  - intros (l & H & <-). induction H as [p H|i p l NE H LT _ IH]; cbn [map fst].
    + apply pages_last. apply (fresh_page_at b io k d); eauto.
    + apply pages_step with (ph_next (pg_header p)); [exact NE|apply (fresh_page_at b io k d); eauto|now apply (fresh_next b io k d)|exact LT|exact IH].
  - intro H. induction H as [H|i j is NE H N LT _ (l & IH & E)].
    + apply (fresh_page_at b io k d) in H as [p H]; [|assumption..]. exists [(last, p)]. split; [now constructor|reflexivity].
    + apply (fresh_page_at b io k d) in H as [p H]; [|assumption..]. pose proof (fresh_next b io k d i p HB F HP H) as N'. assert (j = ph_next (pg_header p)) as -> by congruence.
      exists ((i, p) :: l). split; [now constructor|]. cbn [map fst]. now f_equal.
Qed.

(** ** Rows *)
Lemma sorted_same : forall a c : list N, StronglySorted N.lt a -> StronglySorted N.lt c -> (forall x, In x a <-> In x c) -> a = c.
Proof.
  induction a as [|x a IH]; intros [|y c] HA HC E; [easy|destruct (proj2 (E y)); now left|destruct (proj1 (E x)); now left|].
  apply StronglySorted_inv in HA as [HA FA]. apply StronglySorted_inv in HC as [HC FC]. rewrite Forall_forall in FA, FC.
  assert (x = y) as <-. { destruct (proj1 (E x) (or_introl eq_refl)) as [H|H]; [easy|]. destruct (proj2 (E y) (or_introl eq_refl)) as [G|G]; [easy|]. apply FA in G. apply FC in H. lia. }
  f_equal. apply IH; [exact HA|exact HC|]. intro z. split; intro H.
  - destruct (proj1 (E z) (or_intror H)) as [<-|G]; [|exact G]. apply FA in H. lia.
  - destruct (proj2 (E z) (or_intror H)) as [<-|G]; [|exact G]. apply FC in H. lia.
Qed.
Lemma page_sorted b rs ps db buf pos p fin c : rd_page b rs ps db buf pos = Ok (p, fin) -> pg_content p = PData c -> sorted (dc_rows c).
Proof.
  intros H HC. unfold rd_page in H. apply bind_inv in H as (h & q & _ & H). destruct (is_index_page (ph_flags h)); apply bind_inv in H as (x & q2 & R & H); apply ret_inv in H as [<- _]; [discriminate|].
  cbn [pg_content] in HC. injection HC as ->. unfold rd_dcontent in R. do 6 (apply bind_inv in R as (? & ? & _ & R)). apply bind_inv in R as (rows & q6 & RR & R). do 2 (apply bind_inv in R as (? & ? & _ & R)). apply ret_inv in R as [<- _]. cbn [dc_rows].
  match type of RR with match ?x with _ => _ end = _ => destruct x as [m| |] eqn:RA end; try discriminate. apply Ok_eq in RR. injection RR as -> _. apply rd_rows_at_inv in RA as (S & _). apply S. constructor.
Qed.
Lemma page_present b ps db buf pos p fin d o : rd_page b (rd_dstr b) ps db buf pos = Ok (p, fin) -> pg_content p = PData d -> bytes_ok buf -> 40 <= ps ->
  (exists s, s / 16 < len (dc_groups d) /\ slot_present buf (pos + ps) s /\ slot_offset buf (pos + ps) s = Some o) -> In o (keys (dc_rows d)).
Proof.
  intros H HC HB HP HO. unfold rd_page in H. apply bind_inv in H as (h & q & RH & H). apply phdr_layout in RH as [-> _]. destruct (is_index_page (ph_flags h)); apply bind_inv in H as (x & q2 & R & H); apply ret_inv in H as [<- _]; [discriminate|].
  cbn [pg_content] in HC. injection HC as ->. unfold rd_dcontent in R. apply bind_inv in R as (dh & q & R1 & R). apply bind_inv in R as (heap & q1 & R2 & R).
  apply lift_eq in R2 as [R2 <-]. rewrite page_heap_ok in R2 by assumption. apply Ok_eq in R2 as <-.
  apply bind_inv in R as (base & q3 & RT & R). unfold tell in RT. apply Ok_eq in RT. injection RT as <- <-.
  apply bind_inv in R as (u & q3 & RS & R). unfold seek_to in RS. apply Ok_eq in RS. injection RS as _ <-.
  apply bind_inv in R as (gs & q4 & RG & R). apply bind_inv in R as (u2 & q5 & RS & R). unfold seek_to in RS. apply Ok_eq in RS. injection RS as _ <-.
  apply bind_inv in R as (rows & q6 & RR & R). do 2 (apply bind_inv in R as (? & ? & _ & R)). apply ret_inv in R as [<- _]. cbn [dc_rows dc_groups] in *.
  cbn [dhdr_fields rd_fields u16f rd_field] in R1. invr.
  match type of RG with rd_count _ _ _ ?x = _ => replace x with (pos + ps) in * by lia end.
  match type of RR with match ?x with _ => _ end = _ => destruct x as [m| |] eqn:RA end; try discriminate. apply Ok_eq in RR. injection RR as -> _. apply rd_rows_at_inv in RA as (_ & _ & K). apply K. left.
  pose proof (groups_numbers _ _ _ _ _ RG) as [LG _]. apply (groups_present _ _ _ _ _ HB RG). destruct HO as (s & HO). exists s. unfold len in HO. now rewrite LG in HO.
Qed.
Definition says (k : rkind) (r : row) (x : list N * list dstr) : Prop := row_says r k (fst x) (snd x).
Lemma read_kind rs pt k buf pos r q ns ds : rd_row rs pt buf pos = Ok (r, q) -> row_says r k ns ds -> pt = PT k.
Proof.
  intros H S. destruct pt as [k'|c]; cbn [rd_row] in H; [|apply ret_inv in H as [<- _]; destruct S].
  apply bind_inv in H as (vs & p1 & _ & H). destruct (row_oarr k') as [[off n]|]; [apply bind_inv in H as (c & p2 & _ & H)|]; apply ret_inv in H as [<- _]; cbn [row_says] in S; destruct S as [-> _]; reflexivity.
Qed.
Lemma page_rows_exact b ps db buf pos p fin k xs : bytes_ok buf -> len buf < 2 ^ 64 -> 40 <= ps -> rd_page b (rd_dstr b) ps db buf pos = Ok (p, fin) ->
  (Forall2 (says k) (rows_of_page p) xs <-> rows_in b db buf ps k pos xs).
Proof.
  intros HB HL HP R. pose proof (fun c => page_sorted b (rd_dstr b) ps db buf pos p fin c R) as HS. pose proof R as R2. apply page_layout in R2 as [(_ & _ & (t & T & TN) & _ & _ & _ & (c & C & C1 & C2) & F & _) H]; [|exact HB|exact HP].
  rewrite number_1 in F. unfold rows_in, rows_of_page. destruct (pg_content p) as [d|ic] eqn:EC.
  2:{ destruct H as [H _]. apply (testbit_div _ 6) in H. split.
      - intro H2. inversion H2. exists (ph_flags (pg_header p)). split; [exact F|]. now rewrite H.
      - intros (f & F2 & H2). assert (f = ph_flags (pg_header p)) as -> by congruence. rewrite H in H2. subst xs. constructor. }
  specialize (HS d eq_refl). destruct H as (H & (_ & LG & _ & _ & _ & HR) & _). rewrite C1 in LG. rewrite LG in HR.
  assert (N.testbit (ph_flags (pg_header p)) 6 = false) as HF. { destruct (N.testbit (ph_flags (pg_header p)) 6) eqn:E; [|reflexivity]. apply (testbit_div _ 6) in E. change (2 ^ 6) with 64 in E. congruence. }
  assert (forall o, In o (keys (dc_rows d)) -> present_at buf (pos + ps) ((c mod 8192 + 15) / 16) o) as HK1.
  { intros o HI. unfold keys in HI. apply in_map_iff in HI as ((o' & r) & <- & HI). apply HR in HI as [HI _]. exact HI. }
  assert (forall o, present_at buf (pos + ps) ((c mod 8192 + 15) / 16) o -> In o (keys (dc_rows d))) as HK2.
  { intros o HI. apply (page_present b ps db buf pos p fin d o R EC HB HP). rewrite LG. exact HI. }
  split.
  - intro H2. exists (ph_flags (pg_header p)). split; [exact F|]. rewrite HF. exists c, (keys (dc_rows d)). split; [exact C|]. split; [exact HS|]. split; [intro o; split; [apply HK1|apply HK2]|].
    assert (forall o r, In (o, r) (dc_rows d) -> exists q, rd_row (rd_dstr b) (ph_type (pg_header p)) buf (pos + 40 + o) = Ok (r, q)) as HQ by (intros o r HI; now apply HR in HI as [_ HI]).
    clear - H2 HQ T TN HB HL. split.
    + destruct (dc_rows d) as [|[o r] l]; [now left|right]. inversion H2 as [|r' x l' xs' HX]; subst. destruct (HQ o r) as [q Q]; [now left|]. apply (read_kind _ _ k _ _ _ _ (fst x) (snd x)) in Q; [|exact HX].
      exists t. split; [exact T|]. now rewrite Q in TN.
    + revert xs H2 HQ. induction (dc_rows d) as [|[o r] l IH]; intros xs H2 HQ; inversion H2 as [|r' x l' xs' HX HF]; subst; cbn [keys map fst]; constructor.
      * destruct (HQ o r) as [q Q]; [now left|]. exists q. apply row_exact; [exact HB|exact HL|]. exists r. split; [|exact HX]. pose proof (read_kind _ _ k _ _ _ _ (fst x) (snd x) Q HX) as E. now rewrite <- E.
      * apply IH; [exact HF|]. intros o' r2 HI. apply HQ. now right.
  - intros (f & F2 & H2). assert (f = ph_flags (pg_header p)) as -> by congruence. rewrite HF in H2. destruct H2 as (c' & os & C' & SO & HO & HT & H2). assert (c' = c) as -> by congruence.
    assert (os = keys (dc_rows d)) as ->. { apply sorted_same; [exact SO|exact HS|]. intro o. rewrite HO. split; [apply HK2|apply HK1]. }
    assert (forall o r, In (o, r) (dc_rows d) -> exists q, rd_row (rd_dstr b) (PT k) buf (pos + 40 + o) = Ok (r, q)) as HQ.
    { intros o r HI. assert (ph_type (pg_header p) = PT k) as E.
      { destruct HT as [HT|(t' & T' & HT)]; [destruct (dc_rows d); [destruct HI|discriminate]|]. assert (t' = t) as -> by congruence. destruct (ph_type (pg_header p)) as [k'|cc]; cbn [type_number] in TN; [f_equal; now apply (type_unique db t)|]. now destruct TN as [_ TN]; apply TN in HT. }
      apply HR in HI as [_ HI]. now rewrite E in HI. }
    clear - H2 HQ HB HL. revert xs H2 HQ. induction (dc_rows d) as [|[o r] l IH]; intros xs H2 HQ; cbn [keys map fst snd] in *; inversion H2 as [|o' x l' xs' (q & HX) HF]; subst; constructor.
    + apply row_exact in HX as (r' & R' & S'); [|exact HB|exact HL]. destruct (HQ o r) as [q' Q]; [now left|]. assert (r' = r) as -> by congruence. exact S'.
    + apply IH; [exact HF|]. intros o' r2 HI. apply HQ. now right.
Qed.
Lemma pages_rows_exact b io db d k : bytes_ok io -> len io < 2 ^ 64 -> fresh b io db d -> 40 <= dh_page_size (db_header d) -> forall l xs, (forall i p, In (i, p) l -> page_of b d i p) ->
  (Forall2 (says k) (rows_of l) xs <-> exists xss, Forall2 (fun i ys => rows_in b db io (dh_page_size (db_header d)) k (i * dh_page_size (db_header d)) ys) (map fst l) xss /\ xs = concat xss).
Proof.
  intros HB HL F HP. induction l as [|[i p] l IH]; intros xs H.
  - cbn [rows_of flat_map map]. split; [intro H2; inversion H2; subst; exists []; now split|]. intros (xss & H2 & ->). inversion H2; subst. constructor.
  - unfold rows_of. cbn [flat_map map fst snd]. fold (rows_of l). assert (forall ys, Forall2 (says k) (rows_of_page p) ys <-> rows_in b db io (dh_page_size (db_header d)) k (i * dh_page_size (db_header d)) ys) as HI.
    { intro ys. destruct (proj1 (fresh_page b io db d i p HB F) (H i p (or_introl eq_refl))) as [_ [fin R]]. now apply (page_rows_exact b (dh_page_size (db_header d)) db io _ p fin). }
    split.
    + intro H2. apply Forall2_app_inv_l in H2 as (x1 & x2 & H1 & H2 & ->). apply IH in H2 as (xss & H2 & ->); [|intros j q HJ; apply H; now right]. exists (x1 :: xss). split; [|reflexivity]. constructor; [now apply HI|exact H2].
    + intros (xss & H2 & ->). inversion H2 as [|i' x1 l' xss' H1 H3]; subst. cbn [concat]. apply Forall2_app; [now apply HI|]. apply IH; [intros j q HJ; apply H; now right|]. now exists xss'.
Qed.
Lemma linked_page b d last i l j p : linked b d last i l -> In (j, p) l -> page_of b d j p.
Proof. induction 1 as [q H|i q l NE H LT _ IH]; cbn [In]; intros [E|E]; try (injection E as <- <-; exact H); [destruct E|now apply IH]. Qed.
Lemma find_exact b io db d k : fresh b io db d -> forall first last, (exists i t, find_table (PT k) (db_header d) = Some (i, t) /\ tb_first t = first /\ tb_last t = last) <-> table_at db io k first last.
Proof.
  intros F first last. pose proof (fresh_layout b io db d F) as (_ & _ & H8 & _ & _ & _ & _ & HN & HT). clear F.
  assert (forall i t x, getN (dh_tables (db_header d)) i = Some t -> number io (28 + 16 * i) 4 = Some x -> (tb_type t = PT k <-> In (x, k) (page_types db))) as HK.
  { intros i t x G X. destruct (HT i t G) as ((x' & X' & TN) & _). assert (x' = x) as -> by congruence. destruct (tb_type t) as [k'|c]; cbn [type_number] in TN.
    - split; [congruence|]. intro I. f_equal. now apply (type_unique db x).
    - split; [discriminate|]. intro I. now destruct TN as [_ TN]; apply TN in I. }
  split.
  - intros (i & t & HF & <- & <-). apply find_table_some in HF as (G & TT & HM). destruct (HT i t G) as ((x & X & _) & _ & X1 & X2). apply getN_Some_lt in G as GL. exists (dh_num (db_header d)), i, x. split; [exact H8|]. split; [lia|]. split; [exact X|].
    split; [now apply (HK i t x G X)|]. split; [exact X1|]. split; [exact X2|]. intros t' x' LT X' I. destruct (getN_lt_Some (dh_tables (db_header d)) t') as [y Y]; [lia|]. apply (HM t' y LT Y). now apply (HK t' y x').
  - intros (n & i & x & N8 & LT & X & I & X1 & X2 & HM). assert (n = dh_num (db_header d)) as -> by congruence. destruct (getN_lt_Some (dh_tables (db_header d)) i) as [t G]; [lia|]. destruct (HT i t G) as (_ & _ & Y1 & Y2).
    exists i, t. split; [|split; congruence]. apply find_table_some. split; [exact G|]. split; [now apply (HK i t x)|]. intros j y LJ GJ TJ. destruct (HT j y GJ) as ((x' & X' & _) & _). apply (HM j x' LJ X'). now apply (HK j y x').
Qed.
Lemma says_variant k : forall rs xs, Forall2 (says k) rs xs -> forallb (is_variant k) rs = true.
Proof.
  intros rs xs H. induction H as [|r x rs xs H _ IH]; [reflexivity|]. cbn [forallb]. rewrite IH, andb_true_r. unfold says in H. destruct r as [k' vs c|]; [|destruct H]. cbn [row_says is_variant] in *. destruct H as [-> _]. now destruct (rkind_eq_dec k k).
Qed.
Lemma rows_exact b io db d k xs : bytes_ok io -> len io < 2 ^ 64 -> fresh b io db d -> 40 <= dh_page_size (db_header d) ->
  ((exists rs, snd (iter_rows b k d) = Some (DOk rs) /\ Forall2 (says k) rs xs) <-> table_says b db io (dh_page_size (db_header d)) k xs).
Proof.
  intros HB HL F HP. split.
  - intros (rs & H & HS). apply iter_rows_iff in H as (i & t & l & FT & LK & -> & _). apply (pages_rows_exact b io db d k HB HL F HP) in HS as (xss & HX & ->); [|intros j p; now apply (linked_page b d (tb_last t) (tb_first t))].
    exists (tb_first t), (tb_last t), (map fst l), xss. split; [apply (find_exact b io db d k F); now exists i, t|]. split; [|now split]. apply (linked_exact b io db d); try assumption. now exists l.
  - intros (first & last & is & xss & HT & HPg & HX & ->). apply (find_exact b io db d k F) in HT as (i & t & FT & <- & <-). apply (linked_exact b io db d) in HPg as (l & LK & <-); [|assumption..].
    exists (rows_of l). assert (Forall2 (says k) (rows_of l) (concat xss)) as HS. { apply (pages_rows_exact b io db d k HB HL F HP); [intros j p; now apply (linked_page b d (tb_last t) (tb_first t))|]. now exists xss. }
    split; [|exact HS]. apply iter_rows_iff. exists i, t, l. split; [exact FT|]. split; [exact LK|]. split; [reflexivity|]. now apply says_variant in HS.
Qed.
