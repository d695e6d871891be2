(** * Property C126: what dump-pdb prints about databases that programs have made or changed *)
From Coq Require Import NArith ZArith List Bool Lia.
From Coq Require Import ZifyBool ZifyNat ZifyN.
From Verif Require Import Base BaseFacts Segs Utf Str StrFacts StrGood Schema SchemaFacts Oa OaFacts OaSpec Rows RowFacts RowSpec Page BitFacts PageFacts PageRw PageSpec Alloc AllocFacts AllocSpec
  Db DbFacts DbFlush DbFresh Reread Progress Insert Session Revise Relink PropAlloc PropSession PropRevise Delete Writable Dump DumpFacts PropDump PropDumpBytes Compose Append PropScratch.
Import ListNotations.
Open Scope N_scope.

(** ** Spec *)
(** The pages of a table that are printed: those of its chain; none if the type of the table is unknown and such tables are not asked for. *)
Definition walked (A : shelves) (unknown : bool) (t : table) (l : list N) : Prop :=
  (exists c, tb_type t = PTUnknown c) /\ unknown = false /\ l = [] \/ (unknown = true \/ exists k, tb_type t = PT k) /\ Session.path A (tb_last t) (tb_first t) l.
(** All texts of the rows can be printed. *)
Definition rows_print (rows : list row) : Prop := forall r s, In r rows -> In s (row_strings r) -> text_prints s.
(** All entries are empty or valid. *)
Definition entries_print (pages : list page) : Prop := forall p e, In p pages -> In e (page_entries p) -> e <= 0x1FFFFFF8.

(** ** Proof *)
Lemma linked_table b io k d last i pl : bytes_ok io -> fresh b io k d -> linked b d last i pl -> forall lo, lo <= i -> table_pages b k (db_header d) io last lo i (map snd pl) (DOk tt).
Proof.
  intros HB HF H. assert (forall j p, page_of b d j p -> j <= dh_next (db_header d) - 1 /\ exists q, rd_page b (rd_dstr b) (dh_page_size (db_header d)) k io (j * dh_page_size (db_header d)) = Ok (p, q)) as HP.
  { intros j p P. pose proof (page_of_range b d j p P) as R. pose proof HF as (_ & _ & _ & F4 & F5). split; [lia|]. assert (read_page b d j = DOk p) as E. { destruct P as [P1 [P|[_ P]]]; [|exact P]. apply F5 in P. now replace (j - 1 + 1) with j in P by lia. }
    rewrite (fresh_read b io k d j HB HF) in E by lia. destruct (rd_page b (rd_dstr b) (dh_page_size (db_header d)) k io (j * dh_page_size (db_header d))) as [[p' q]| |]; try discriminate. exists q. congruence. }
  induction H as [p P|i p l NE P HI HL IH]; intros lo LO; destruct (HP _ _ P) as (B & q & E); cbn [map snd].
  - now apply (tp_last _ _ _ _ _ lo p q).
  - apply (tp_next _ _ _ _ _ lo i p q); try easy. apply IH. lia.
Qed.
Lemma same_content r r' : same_values r r' -> content_of r' = content_of r /\ row_strings r' = row_strings r.
Proof. destruct r as [k vs c|], r' as [k' vs' c'|]; cbn [same_values content_of row_strings]; try easy. intros (-> & -> & E). destruct c as [a|], c' as [a'|]; cbn [option_map] in E; try discriminate; [injection E as ->|]; easy. Qed.
Lemma linked_pages b d last i pl : linked b d last i pl -> Forall2 (page_of b d) (map fst pl) (map snd pl).
Proof. intro H. induction H as [p P|i p l NE P HI HL IH]; cbn [map fst snd]; constructor; easy || constructor. Qed.
Lemma print_pages pages rows : Forall2 same_values rows (flat_map rows_of_page pages) -> (Forall printable pages <-> rows_print rows /\ entries_print pages).
Proof.
  intro F. assert (forall r', In r' (flat_map rows_of_page pages) -> exists r, In r rows /\ row_strings r' = row_strings r) as F1.
  { intros r' H. clear - F H. induction F as [|r x l l' E _ IH]; [destruct H|]. destruct H as [<-|H]; [exists r; split; [now left|now apply same_content]|]. destruct (IH H) as (y & Y1 & Y2). exists y. split; [now right|exact Y2]. }
  assert (forall r, In r rows -> exists r', In r' (flat_map rows_of_page pages) /\ row_strings r' = row_strings r) as F2.
  { intros r H. clear - F H. induction F as [|x r' l l' E _ IH]; [destruct H|]. destruct H as [<-|H]; [exists r'; split; [now left|now apply same_content]|]. destruct (IH H) as (y & Y1 & Y2). exists y. split; [now right|exact Y2]. }
  rewrite Forall_forall. split.
  - intro H. split.
    + intros r s HR HS. destruct (F2 r HR) as (r' & R1 & R2). rewrite <- R2 in HS. apply in_flat_map in R1 as (p & P1 & P2). specialize (H p P1). unfold printable, rows_of_page in *. destruct (pg_content p) as [c|c]; [|destruct P2].
      apply in_map_iff in P2 as ([o r2] & <- & P2). apply prints_text. now apply (H o r2).
    + intros p e HP HE. specialize (H p HP). unfold printable, page_entries in *. destruct (pg_content p) as [c|c]; [destruct HE|]. now apply H.
  - intros [H1 H2] p HP. unfold printable. destruct (pg_content p) as [c|c] eqn:E.
    + intros o r s HI HS. apply prints_text. destruct (F1 r) as (r0 & R1 & R2); [apply in_flat_map; exists p; split; [exact HP|]; unfold rows_of_page; rewrite E; apply in_map_iff; now exists (o, r)|]. apply (H1 r0); [exact R1|]. now rewrite <- R2.
    + intros e HE. apply (H2 p e HP). unfold page_entries. now rewrite E.
Qed.
Lemma walked_segments b io k d G A unknown : bytes_ok io -> fresh b io k d -> stores b d G A -> forall ts ls, Forall2 (walked A unknown) ts ls -> forall segs i0, len segs = len ts ->
  (forall j t, getN ts j = Some t -> exists s, getN segs j = Some s /\ segment b k (db_header d) io unknown (i0 + j) t s) ->
  exists pages, Forall2 (page_of b d) (concat ls) pages /\ Forall2 same_values (flat_map (shelf_rows A) (concat ls)) (flat_map rows_of_page pages) /\
    (Forall printable pages -> Forall ends_well segs /\ no_message (concat (map fst segs)) /\ rows_shown (concat (map fst segs)) = flat_map page_contents pages /\ entries_shown (concat (map fst segs)) = flat_map page_entries pages) /\
    (forall p, In p pages -> exists j t l, getN ts j = Some t /\ (unknown = true \/ exists k, tb_type t = PT k) /\ table_pages b k (db_header d) io (tb_last t) 1 (tb_first t) l (DOk tt) /\ In p l).
Proof.
  intros HB HF HS ts ls H. induction H as [|t l ts ls W _ IH]; intros segs i0 HL HG.
  - destruct segs; [|rewrite len_cons in HL; change (len (@nil table)) with 0 in HL; lia]. exists []. split; [constructor|]. split; [constructor|]. split; [|now intros p []]. intros _. split; [constructor|]. split; [intros i e []|]. easy.
  - destruct segs as [|s segs]; [rewrite len_cons in HL; change (len (@nil (list event * bool))) with 0 in HL; lia|]. destruct (IH segs (i0 + 1)) as (pages & P1 & P2 & P3 & P4); [rewrite !len_cons in HL; lia| |].
    { intros j u E. destruct (HG (j + 1) u) as (x & X1 & X2); [now rewrite getN_cons_S|]. rewrite getN_cons_S in X1. exists x. split; [exact X1|]. now replace (i0 + 1 + j) with (i0 + (j + 1)) by lia. }
    destruct (HG 0 t) as (x & X1 & X2); [reflexivity|]. cbn in X1. injection X1 as <-. rewrite N.add_0_r in X2. cbn [concat].
    assert (forall p, In p pages -> exists j u l, getN (t :: ts) j = Some u /\ (unknown = true \/ exists k, tb_type u = PT k) /\ table_pages b k (db_header d) io (tb_last u) 1 (tb_first u) l (DOk tt) /\ In p l) as P4'.
    { intros p HP. destruct (P4 p HP) as (j & u & l' & Q1 & Q2). exists (j + 1), u, l'. split; [now rewrite getN_cons_S|exact Q2]. }
    destruct W as [((c & C) & U & ->)|(U & W)].
    + exists pages. split; [exact P1|]. split; [exact P2|]. split; [|exact P4']. intro FP. destruct (P3 FP) as (Q1 & Q2 & Q3 & Q4). assert (s = ([EvTable i0 (tb_type t); EvSkip], false)) as ->.
      { apply (segment_fun b k (db_header d) io unknown i0 t); [|exact X2]. now apply (seg_skip _ _ _ _ _ _ _ c). }
      split; [now constructor|]. cbn [map fst concat]. split; [|split; [exact Q3|exact Q4]]. intros i e [E|[E|E]]; try discriminate. now apply Q2 in E.
    + destruct (path_linked b d G A _ _ _ HS W) as (pl & L1 & L2 & L3). assert (table_pages b k (db_header d) io (tb_last t) 1 (tb_first t) (map snd pl) (DOk tt)) as TP.
      { apply (linked_table b io k d _ _ _ HB HF L1). inversion L1 as [p [P _]|i p l' _ [P _]]; subst; exact P. }
      exists (map snd pl ++ pages). split; [apply Forall2_app; [|exact P1]; rewrite <- L2; now apply (linked_pages b d (tb_last t) (tb_first t))|]. split.
      { rewrite !flat_map_app. apply Forall2_app; [|exact P2]. assert (flat_map rows_of_page (map snd pl) = rows_of pl) as -> by (unfold rows_of; clear; induction pl as [|y pl IH]; [reflexivity|]; cbn [map flat_map]; now rewrite IH). exact L3. }
      split; [|intros p HP; apply in_app_or in HP as [HP|HP]; [|now apply P4']; exists 0, t, (map snd pl); easy].
      intro FP. apply Forall_app in FP as [FP1 FP2]. destruct (P3 FP2) as (Q1 & Q2 & Q3 & Q4). assert (s = (EvTable i0 (tb_type t) :: flat_map page_lines (map snd pl) ++ [], false)) as ->.
      { apply (segment_fun b k (db_header d) io unknown i0 t); [|exact X2]. apply (seg_dump b k (db_header d) io unknown i0 t (map snd pl) (DOk tt) _ (DOk tt)); [exact U|exact TP|]. now apply shows_ok. }
      assert (forall l, rows_shown (flat_map page_lines l) = flat_map page_contents l /\ entries_shown (flat_map page_lines l) = flat_map page_entries l) as HX.
      { clear. induction l as [|p l [I1 I2]]; [easy|]. cbn [flat_map]. rewrite rows_app, entries_app, page_rows, page_ents. now rewrite I1, I2. }
      destruct (HX (map snd pl)) as [X3 X4]. split; [now constructor|]. cbn [map fst concat]. rewrite app_nil_r, !flat_map_app. split; [|split].
      * intros i e [E|E]; [discriminate|]. apply in_app_or in E as [E|E]; [now apply pages_no_message in E|now apply Q2 in E].
      * change (rows_shown (flat_map page_lines (map snd pl) ++ concat (map fst segs)) = flat_map page_contents (map snd pl) ++ flat_map page_contents pages). now rewrite rows_app, X3, Q3.
      * change (entries_shown (flat_map page_lines (map snd pl) ++ concat (map fst segs)) = flat_map page_entries (map snd pl) ++ flat_map page_entries pages). now rewrite entries_app, X4, Q4.
Qed.
Lemma same_contents pages rows : Forall2 same_values rows (flat_map rows_of_page pages) -> flat_map page_contents pages = map content_of rows.
Proof.
  intro F. assert (flat_map page_contents pages = map content_of (flat_map rows_of_page pages)) as ->. { clear. induction pages as [|p l IH]; [reflexivity|]. cbn [flat_map]. now rewrite map_app, IH. }
  induction F as [|r r' l l' E _ IH]; [reflexivity|]. cbn [map]. rewrite IH. f_equal. now apply same_content.
Qed.

(** ** Property *)
(** A database whose pages hold the rows of [A] (C75, C78, C80), and whose tables have the pages [ls].  If all texts and entries can be printed, the command ends well, without a message, having printed
    the rows table by table and page by page, and the entries of the index pages; otherwise it panics. *)
Theorem c126_dump : forall b io k d G A unknown ls, db_open io k = DOk d -> stores b d G A -> Forall2 (walked A unknown) (dh_tables (db_header d)) ls ->
  let rows := flat_map (shelf_rows A) (concat ls) in exists pages, Forall2 (page_of b d) (concat ls) pages /\
  (rows_print rows /\ entries_print pages -> exists evs, dump_pdb b io k unknown = Some (evs, DOk tt) /\ no_message evs /\ rows_shown evs = map content_of rows /\ entries_shown evs = flat_map page_entries pages) /\
  (~ (rows_print rows /\ entries_print pages) -> exists evs, dump_pdb b io k unknown = Some (evs, DPanic)).
Proof.
  intros b io k d G A unknown ls HO HS HW rows. pose proof (stores_bytes b io k d G A HO HS) as HB. pose proof (open_fresh b io k d HO) as HF. pose proof (c73_dump b io k unknown HB) as HD. destruct HF as (F1 & F2 & (q & F3) & F45). pose proof (open_fresh b io k d HO) as HF.
  rewrite F3 in HD. destruct HD as (segs & es & x & D1 & D2 & D3 & D4). destruct (walked_segments b io k d G A unknown HB HF HS _ ls HW segs 0 D2) as (pages & P1 & P2 & P3 & P4); [intros j t E; rewrite N.add_0_l; now apply D4|].
  exists pages. split; [exact P1|]. fold rows in P2. pose proof (print_pages pages rows P2) as PP. split.
  - intro H. apply PP, P3 in H as (Q1 & Q2 & Q3 & Q4). destruct D3 as [(_ & -> & ->)|(l1 & s & l2 & -> & _ & E & _)].
    + exists (EvHeader (db_header d) :: concat (map fst segs)). split; [exact D1|]. split; [intros i e [E|E]; [discriminate|now apply Q2 in E]|]. split; [|exact Q4]. cbn [rows_shown flat_map app]. rewrite <- (same_contents pages rows P2). exact Q3.
    + exfalso. apply Forall_app in Q1 as [_ Q1]. inversion Q1 as [|? ? Q _]; subst. unfold ends_well in Q. congruence.
  - intro H. assert (exists p, In p pages /\ ~ printable p) as (p & HP & NP).
    { destruct (existsb page_debug_panics pages) eqn:E; [apply existsb_exists in E as (p & E1 & E2); exists p; split; [exact E1|]; intro C; apply page_panics in C; congruence|]. exfalso. apply H, PP. apply Forall_forall. intros p HP. apply page_panics. rewrite existsb_false in E. now apply E. }
    destruct (P4 p HP) as (j & t & l & T1 & T2 & T3 & T4). apply (c73_panic b io k (db_header d) q unknown HB F3). exists j, t, l, (DOk tt). do 3 (split; [assumption|]). right. now exists p.
Qed.
Print Assumptions c126_dump.

(** After programs that insert, change and delete rows, relabel pages and change the header (C80), the command prints the rows that should be there then. *)
Theorem c126_jobs : forall b k io d G A js io' unknown ls, db_open io k = DOk d -> stores b d G A -> tasks_ok b k G (db_header d, A) (concat js) -> jobs b k io js io' ->
  let h' := fst (tasks_work (db_header d, A) (concat js)) in let A' := snd (tasks_work (db_header d, A) (concat js)) in Forall2 (walked A' unknown) (dh_tables h') ls ->
  let rows := flat_map (shelf_rows A') (concat ls) in exists d' pages, db_open io' k = DOk d' /\ Forall2 (page_of b d') (concat ls) pages /\
  (rows_print rows /\ entries_print pages -> exists evs, dump_pdb b io' k unknown = Some (evs, DOk tt) /\ no_message evs /\ rows_shown evs = map content_of rows /\ entries_shown evs = flat_map page_entries pages) /\
  (~ (rows_print rows /\ entries_print pages) -> exists evs, dump_pdb b io' k unknown = Some (evs, DPanic)).
Proof.
  intros b k io d G A js io' unknown ls HO HS HT HJ h' A' HW rows. destruct (jobs_stores b k io js io' HJ d G (db_header d, A) HO HS eq_refl HT) as (d' & O1 & O2 & O3). exists d'.
  destruct (c126_dump b io' k d' G A' unknown ls O1 O3) as (pages & D); [now rewrite O2|]. exists pages. now split.
Qed.
Print Assumptions c126_jobs.

(** A database made from scratch (C124).  The pages of a table are those of its chain. *)
Definition planned_table (plans : list plan) (unknown : bool) (t : table) (q : list plan) : Prop :=
  (exists c, tb_type t = PTUnknown c) /\ unknown = false /\ q = [] \/ (unknown = true \/ exists k, tb_type t = PT k) /\ PropScratch.chain plans (tb_last t) (tb_first t) q.
(** The command prints exactly the rows that were put in, if their texts can be printed, and panics otherwise. *)
Theorem c126_made : forall b db h plans io unknown qs, dbhdr_ok db h -> dh_next h = 1 -> let ps := dh_page_size h in 28 + 16 * len (dh_tables h) <= ps -> 40 <= ps -> ps <= 4096 -> 1 + len plans < 2 ^ 32 ->
  Forall (plan_ok b db ps) plans -> makes b db h plans io -> Forall2 (planned_table plans unknown) (dh_tables h) qs ->
  let rows := flat_map planned (concat qs) in
  (rows_print rows -> exists evs, dump_pdb b io db unknown = Some (evs, DOk tt) /\ no_message evs /\ rows_shown evs = map content_of rows /\ entries_shown evs = []) /\
  (~ rows_print rows -> exists evs, dump_pdb b io db unknown = Some (evs, DPanic)).
Proof.
  intros b db h plans io unknown qs HH HN ps HP P1 P2 HL HO HM HQ rows. destruct (made_stores b db h plans io HH HN HP P1 P2 HL HO HM) as (d & O1 & O2 & O3). fold ps in O3. set (A := adjoin (fun _ => None) 1 (map (shelf_of ps) plans)) in *.
  assert (exists ls, Forall2 (walked A unknown) (dh_tables h) ls /\ flat_map (shelf_rows A) (concat ls) = rows) as (ls & L1 & L2).
  { unfold rows. clear - HO HQ. induction HQ as [|t q ts qs W _ (ls & L1 & L2)]; [exists []; split; [constructor|reflexivity]|]. destruct W as [(C & U & ->)|(U & W)].
    - exists ([] :: ls). split; [constructor; [now left|exact L1]|exact L2].
    - destruct (chain_path b db ps plans _ _ q HO W) as (is & I1 & I2). exists (is :: ls). split; [constructor; [now right|exact L1]|]. cbn [concat]. rewrite !flat_map_app, L2. f_equal. exact I2. }
  destruct (c126_dump b io db d (fun _ => GGrow) A unknown ls O1 O3) as (pages & D1 & D2 & D3); [rewrite O2; exact L1|]. rewrite L2 in D2, D3.
  assert (forall p, In p pages -> page_entries p = []) as HE.
  { intros p HI. assert (exists i s, A i = Some s /\ page_of b d i p) as (i & s & E & PO).
    { assert (Forall (fun i => exists s, A i = Some s) (concat ls)) as HA.
      { clear - L1. induction L1 as [|t l ts ls W _ IH]; [constructor|]. cbn [concat]. apply Forall_app. split; [|exact IH]. destruct W as [(_ & _ & ->)|(_ & W)]; [constructor|]. induction W as [s E|i s l NE E HI HP IH2]; constructor; eauto. }
      clear - D1 HA HI. induction D1 as [|i p' l l' E _ IH]; [destruct HI|]. inversion HA as [|? ? [s Es] HA']; subst. destruct HI as [<-|HI]; [now exists i, s|now apply IH]. }
    destruct (stores_sound b d _ A i s p O3 E) as (_ & _ & GR & _); [discriminate|exact PO|]. destruct GR as [(h' & c & -> & _) _]. reflexivity. }
  assert (entries_print pages) as EP by (intros p e HI; rewrite (HE p HI); intros []). split.
  - intro H. destruct D2 as (evs & V1 & V2 & V3 & V4); [now split|]. exists evs. split; [exact V1|]. split; [exact V2|]. split; [exact V3|]. rewrite V4. clear - HE. induction pages as [|p l IH]; [reflexivity|]. cbn [flat_map]. rewrite (HE p) by now left. apply IH. intros x HX. apply HE. now right.
  - intro H. apply D3. now intros [H' _].
Qed.
Print Assumptions c126_made.

(** ** Example: the database of C124 with its two tables *)
Example c126_example_hyp : exists p1 p2 p3, c124_plans = [p1; p2; p3] /\ Forall2 (planned_table c124_plans false) (dh_tables c124_hdr) [[p1; p3]; [p2]] /\ rows_print (flat_map planned (concat [[p1; p3]; [p2]])).
Proof.
  eexists _, _, _. split; [reflexivity|]. split.
  - constructor; [|constructor; [|constructor]]; right; (split; [right; eexists; reflexivity|]).
    + apply chain_step; [easy|easy|reflexivity|easy|]. apply chain_last; [easy|reflexivity].
    + apply chain_last; [easy|reflexivity].
  - assert (forall s, In s (row_strings c18_new) -> text_prints s) as H. { intros s HS. apply prints_text. revert s HS. apply row_panics. vm_compute. reflexivity. }
    intros r s HR HS. cbn in HR. destruct HR as [<-|[<-|[<-|[]]]]; now apply H.
Qed.
Example c126_example : exists evs, dump_pdb Debug c124_io DbPlain false = Some (evs, DOk tt) /\ no_message evs /\ rows_shown evs = map content_of [c18_new; c18_new; c18_new] /\ entries_shown evs = [].
Proof.
  destruct c126_example_hyp as (p1 & p2 & p3 & E & HQ & HR). destruct c124_example_hyp as (H1 & H2 & H3 & _).
  destruct (c126_made Debug DbPlain c124_hdr c124_plans c124_io false [[p1; p3]; [p2]] H1) as [HS _]; [reflexivity|vm_compute; discriminate|vm_compute; discriminate|vm_compute; discriminate|reflexivity|exact H2|exact H3|exact HQ|].
  destruct (HS HR) as (evs & V1 & V2 & V3 & V4). exists evs. split; [exact V1|]. split; [exact V2|]. split; [|exact V4]. rewrite V3. injection E as <- <- <-. reflexivity.
Qed.
(** The same database with a byte string that is not UTF-8: the dump panics. *)
Definition c126_row : row := RRow KKey [VInt 1; VInt 1; VStr (DSShort [255])] None.
Example c126_panics : ~ rows_print [c126_row] /\ exists evs,
    match Alloc.run Debug [(11, Some c126_row)] (blank 198 1 (mk_plan (PT KKey) 2 [])) with
    | Ok q => match wr_all [page_write Debug 198 q] (dbhdr_enc (mk_dbhdr 198 1 1 0 0 [mk_table (PT KKey) 2 1 1]), 198) with
      | Ok (io1, _) => match db_open io1 DbPlain with DOk d => match flush Debug (with_header d (with_next 2 (db_header d))) with DOk d2 => dump_pdb Debug (db_io d2) DbPlain false | _ => None end | _ => None end
      | _ => None end
    | _ => None end = Some (evs, DPanic).
Proof.
  split; [|eexists; vm_compute; reflexivity]. intro H. assert (printable_str (DSShort [255])) as C. { apply prints_text. apply (H c126_row); [now left|]. cbn. auto. }
  apply C. reflexivity.
Qed.
(** The first row of page 1 is deleted. *)
Definition c126_done : list N := Eval vm_compute in
  match db_open c124_io DbPlain with
  | DOk d => let '(d1, r) := load_page Debug d 1 in
    match r with DOk p => match delete_row Debug 0 p with Ok p' => match flush Debug (set_page d1 1 p') with DOk d2 => db_io d2 | _ => [] end | _ => [] end | _ => [] end
  | _ => [] end.
Example c126_example_jobs : exists d A io' ls, db_open c124_io DbPlain = DOk d /\ stores Debug d (fun _ => GGrow) A /\ let js := [[TActs c78_tables [ADelete 1 0]]] in tasks_ok Debug DbPlain (fun _ => GGrow) (db_header d, A) (concat js) /\
  jobs Debug DbPlain c124_io js io' /\ let st := tasks_work (db_header d, A) (concat js) in Forall2 (walked (snd st) false) (dh_tables (fst st)) ls /\
  flat_map (shelf_rows (snd st)) (concat ls) = [c18_new; c18_new] /\ option_map (fun x => rows_shown (fst x)) (dump_pdb Debug io' DbPlain false) = Some (map content_of [c18_new; c18_new]).
Proof.
  destruct c124_example_hyp as (H1 & H2 & H3 & _). destruct (made_stores Debug DbPlain c124_hdr c124_plans c124_io H1) as (d & O1 & O2 & O3); [reflexivity|vm_compute; discriminate|vm_compute; discriminate|vm_compute; discriminate|reflexivity|exact H2|exact H3|].
  eexists d, _, c126_done, [[1; 3]; [2]]. split; [exact O1|]. split; [exact O3|]. cbv zeta. rewrite O2. split; [|split; [|split; [|split]]].
  - cbn [concat app tasks_ok task_ok acts_ok act_ok fst snd]. repeat split; try easy. eexists. reflexivity.
  - eapply jobs_cons; [|apply jobs_nil]. eexists _, _, _. split; [vm_compute; reflexivity|]. split; [|split].
    + eapply tasks_cons; [apply performs_acts; eapply acts_cons; [eapply does_delete; vm_compute; reflexivity|apply acts_nil]|apply tasks_nil].
    + vm_compute. reflexivity.
    + vm_compute. reflexivity.
  - constructor; [|constructor; [|constructor]]; right; (split; [right; eexists; reflexivity|]).
    + eapply path_step; [easy|vm_compute; reflexivity|vm_compute; reflexivity|]. eapply path_last. vm_compute. reflexivity.
    + eapply path_last. vm_compute. reflexivity.
  - vm_compute. reflexivity.
  - vm_compute. reflexivity.
Qed.
