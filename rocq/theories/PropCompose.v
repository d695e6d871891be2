(** * Property C88: from a change of the database to the exported playlists *)
From Coq Require Import NArith ZArith List Bool Lia Sorted String.
From Coq Require Import ZifyBool ZifyNat ZifyN.
From Verif Require Import Base BaseFacts Segs Utf Str StrFacts StrGood Schema SchemaFacts Oa OaFacts OaSpec Rows RowFacts RowSpec Page BitFacts PageFacts PageRw PageSpec Alloc AllocFacts AllocSpec
  Db DbFacts DbFlush DbFresh RowShape Reread Progress Insert Session Dump DumpFacts Setting Device DeviceFacts DeviceTree Cli CliFacts CliList Listing Fs FsFacts FsExport Main Compose
  PropAlloc PropSession PropCli PropListing PropExport PropMain.
Import ListNotations.
Local Close Scope string_scope.
Open Scope N_scope.

(** The pages [l] of the table of type [kd], and the rows on them. *)
Definition chain (A : shelves) (h : dbhdr) (kd : rkind) (l : list N) : Prop := exists i t, find_table (PT kd) h = Some (i, t) /\ Session.path A (tb_last t) (tb_first t) l.
Definition on_shelves (A : shelves) (h : dbhdr) (kd : rkind) (rows : list row) : Prop :=
  exists l, chain A h kd l /\ rows = flat_map (shelf_rows A) l /\ forallb (is_variant kd) rows = true.
Lemma on_table b io k d G A kd rows : db_open io k = DOk d -> stores b d G A -> on_shelves A (db_header d) kd rows -> exists rows', table_in b k (db_header d) io kd (DOk rows') /\ Forall2 same_values rows rows'.
Proof. intros HO HS (l & (i & t & HT & HP) & -> & HV). exact (stores_table b io k d G A kd i t l (stores_bytes b io k d G A HO HS) HO HS HT HP HV). Qed.
Lemma on_values {X} (f : row -> option X) b io k d G A kd rows : (forall r, row_shaped r -> is_variant kd r = true -> exists x, f r = Some x) -> (forall r r', same_values r r' -> f r' = f r) ->
  db_open io k = DOk d -> stores b d G A -> on_shelves A (db_header d) kd rows ->
  exists rows' l, table_in b k (db_header d) io kd (DOk rows') /\ Forall2 (fun r x => f r = Some x) rows' l /\ Forall2 (fun r x => f r = Some x) rows l.
Proof.
  intros HF HS HO HST HR. destruct (on_table b io k d G A kd rows HO HST HR) as (rows' & T & F). pose proof (iter_rows_is b io k kd d _ (stores_bytes b io k d G A HO HST) (open_fresh b io k d HO) T) as E.
  destruct (table_rows_ok b kd f d rows' HF (open_shaped io k d HO) E) as (l & _ & FL). exists rows', l. split; [easy|]. split; [easy|]. exact (same_rows_back f HS _ _ _ F FL).
Qed.

(** C88.  Programs insert rows and save (C75).  The export that follows is determined by the rows that are then on the shelves. *)
Theorem c88_rows : forall b io d G A ess io' Rn Re Rt, db_open io DbPlain = DOk d -> stores b d G A -> allowed b G A (List.concat ess) -> sessions b DbPlain io ess io' ->
  let A' := work (List.concat ess) A in
  on_shelves A' (db_header d) KPlaylistTreeNode Rn -> on_shelves A' (db_header d) KPlaylistEntry Re -> on_shelves A' (db_header d) KTrack Rt ->
  exists d' ns es raw, db_open io' DbPlain = DOk d' /\
    Forall2 (fun r x => node_of_row r = Some x) Rn ns /\ Forall2 (fun r x => pentry_of_row r = Some x) Re es /\ Forall2 (fun r x => track_of_row r = Some x) Rt raw /\
    forall depth out canon ops, export b depth d' out canon = Some (Done ops) <-> exists tr ts c,
      Forall2 (fun x y => fst x = fst y /\ dstr_into_string (snd x) = inl (snd y)) raw tr /\ playlist_tree depth ns = Some (Done ts) /\
      (forall id, playlist_text canon es tr id (c id)) /\ ops = flat_map (fun t => walk c t out) ts.
Proof.
  intros b io d G A ess io' Rn Re Rt HO HST HA HS A' Sn Se St. destruct (sessions_stores b DbPlain io ess io' HS d G A HO HST HA) as (d' & O' & H' & ST'). fold A' in ST'. rewrite <- H' in Sn, Se, St.
  destruct (on_values node_of_row b io' DbPlain d' G A' _ _ node_of_shaped same_node O' ST' Sn) as (rn & ns & Tn & Fn & Gn).
  destruct (on_values pentry_of_row b io' DbPlain d' G A' _ _ pentry_of_shaped same_pentry O' ST' Se) as (re & es & Te & Fe & Ge).
  destruct (on_values track_of_row b io' DbPlain d' G A' _ _ track_of_shaped same_track O' ST' St) as (rt & raw & Tt & Ft & Gt).
  pose proof (stores_bytes b io' DbPlain d' G A' O' ST') as HB.
  exists d', ns, es, raw. do 4 (split; [easy|]). intros depth out canon ops. split.
  - intro E. pose proof (c77_export b io' DbPlain d' out canon depth HB O') as HE. rewrite E in HE. destruct HE as (rn' & re' & rt' & ns' & es' & raw' & tr & ts & c & T1 & T2 & T3 & F1 & F2 & F3 & F4 & PT & HTX & ->).
    pose proof (table_in_fun _ _ _ _ _ _ _ Tn T1) as [= ->]. pose proof (table_in_fun _ _ _ _ _ _ _ Te T2) as [= ->]. pose proof (table_in_fun _ _ _ _ _ _ _ Tt T3) as [= ->].
    rewrite (forall2_some _ _ _ _ Fn F1) in PT. rewrite (forall2_some _ _ _ _ Fe F2) in HTX. rewrite (forall2_some _ _ _ _ Ft F3) in F4. now exists tr, ts, c.
  - intros (tr & ts & c & FD & PT & HTX & ->). rewrite (flat_map_ext _ _ (fun t => walk_ext _ _ (fun id => text_fun _ _ _ _ _ _ (content_text canon es tr id) (HTX id)) t out)). exact (export_is b io' DbPlain d' out canon depth rn re rt ns es raw tr ts HB O' Tn Te Tt Fn Fe Ft FD PT).
Qed.
Print Assumptions c88_rows.

(** ** One entry more *)
Definition entry_row (x t id : N) : row := RRow KPlaylistEntry [VInt x; VInt t; VInt id] None.
Lemma entry_fine b x t id : x < 2 ^ 32 -> t < 2 ^ 32 -> id < 2 ^ 32 -> op_fine b (PT KPlaylistEntry) (12, Some (entry_row x t id)).
Proof.
  intros HX HT HI. destruct (c75_predicted b (entry_row x t id) (PT KPlaylistEntry) (le_enc 4 x ++ le_enc 4 t ++ le_enc 4 id) 12) as (n & E & _ & H).
  - split; [|easy]. repeat constructor; cbn; lia.
  - easy.
  - easy.
  - easy.
  - reflexivity.
  - change (12 <= 65528). lia.
  - injection E as <-. exact H.
Qed.
Lemma path_above A last : forall i l, Session.path A last i l -> forall j, In j l -> i <= j.
Proof.
  intros i l H. induction H as [s E|i s l NE E HI HP IH]; intros j [<-|I]; [lia|easy|lia|]. specialize (IH j I). lia.
Qed.
Lemma path_nodup A last : forall i l, Session.path A last i l -> NoDup l.
Proof.
  intros i l H. induction H as [s E|i s l NE E HI HP IH]; constructor; try easy; [constructor|]. intro I. apply (path_above _ _ _ _ HP) in I. lia.
Qed.
Lemma rows_elsewhere A i op : forall l, ~ In i l -> flat_map (shelf_rows (work1 A (i, op))) l = flat_map (shelf_rows A) l.
Proof.
  induction l as [|j l IH]; intro N; [easy|]. cbn [flat_map]. rewrite IH by (intro I; apply N; now right). f_equal. unfold shelf_rows, work1. cbn [fst snd].
  destruct (N.eqb_spec j i) as [->|]; [|easy]. destruct N. now left.
Qed.
Lemma path_fun A last i l l' : Session.path A last i l -> Session.path A last i l' -> l' = l.
Proof.
  intro H. revert l'. induction H as [s E|i s l NE E HI HP IH]; intros l' H'; inversion H' as [s' E'|? s' ? NE' E' HI' HP']; subst; try easy. f_equal. apply IH. rewrite E in E'. now injection E' as <-.
Qed.
(** A program adds an entry with number [x] to the playlist [id], on page [i] of the table, and no other has this number: then the export differs from
    an export before in the file of this playlist only, and there in the line for the track (none if there is no such track), which stands
    behind the lines for smaller numbers and before those for larger ones. *)
Theorem c88_entry : forall b io d G A io' i s x t id ln le lt Re, db_open io DbPlain = DOk d -> stores b d G A ->
  chain A (db_header d) KPlaylistTreeNode ln -> chain A (db_header d) KPlaylistEntry le -> chain A (db_header d) KTrack lt -> In i le -> ~ In i ln -> ~ In i lt ->
  on_shelves A (db_header d) KPlaylistEntry Re -> (forall r u, In r Re -> pentry_of_row r <> Some (mk_pentry x u id)) ->
  A i = Some s -> G i = GGrow -> sh_type s = PT KPlaylistEntry -> 18 <= sh_free s -> x < 2 ^ 32 -> t < 2 ^ 32 -> id < 2 ^ 32 ->
  session b DbPlain io [(i, [(12, Some (entry_row x t id))])] io' ->
  forall depth out canon ops, export b depth d out canon = Some (Done ops) ->
  exists d' ts tr c c', db_open io' DbPlain = DOk d' /\ ops = flat_map (fun t => walk c t out) ts /\ export b depth d' out canon = Some (Done (flat_map (fun t => walk c' t out) ts)) /\
    (forall id', id' <> id -> c' id' = c id') /\
    (exists rn ns, table_in b DbPlain (db_header d) io KPlaylistTreeNode (DOk rn) /\ Forall2 (fun r x => node_of_row r = Some x) rn ns /\ playlist_tree depth ns = Some (Done ts)) /\
    (exists rt raw, table_in b DbPlain (db_header d) io KTrack (DOk rt) /\ Forall2 (fun r x => track_of_row r = Some x) rt raw /\
       Forall2 (fun x y => fst x = fst y /\ dstr_into_string (snd x) = inl (snd y)) raw tr) /\
    (exists re es, table_in b DbPlain (db_header d) io KPlaylistEntry (DOk re) /\ Forall2 (fun r x => pentry_of_row r = Some x) re es /\ forall id', playlist_text canon es tr id' (c id')) /\
    exists ps1 ps2 ls1 new ls2, c id = flat_map (fun l => l ++ [10]) (ls1 ++ ls2) /\ c' id = flat_map (fun l => l ++ [10]) (ls1 ++ new ++ ls2) /\
      listed canon tr ps1 ls1 /\ listed canon tr [(x, t)] new /\ listed canon tr ps2 ls2 /\ Forall (fun y => fst y < x) ps1 /\ Forall (fun y => x < fst y) ps2.
Proof.
  intros b io d G A io' i s x t id ln le lt Re HO HST Cn Ce Ct Ii Nn Nt SR HX EA EG ETY EF BX BT BI HSE depth out canon ops HE.
  assert (allowed b G A [(i, [(12, Some (entry_row x t id))])]) as HAL.
  { constructor; [|constructor]. exists s. split; [exact EA|]. right. split; [exact EG|]. rewrite ETY. constructor; [|constructor]. now apply entry_fine. }
  pose proof (stores_bytes b io DbPlain d G A HO HST) as HB.
  pose proof (export_file b io DbPlain d out canon HB HO depth) as H0. rewrite HE in H0. destruct H0 as (rn & re & rt & ns & es & raw & tr & ts & Tn & Te & Tt & Fn & Fe & Ft & FD & PT & EO).
  set (A' := work1 A (i, [(12, Some (entry_row x t id))])).
  assert (forall kd l rows, chain A (db_header d) kd l -> table_in b DbPlain (db_header d) io kd (DOk rows) -> Forall2 same_values (flat_map (shelf_rows A) l) rows) as HT.
  { intros kd l rows (j & tb & FT & HP) T. pose proof (iter_rows_is b io DbPlain kd d _ HB (open_fresh b io DbPlain d HO) T) as E. destruct (path_linked b d G A _ _ _ HST HP) as (pl & LK & _ & F).
    rewrite (iter_rows_linked b kd d j tb pl FT LK) in E. unfold rows_as in E. destruct (forallb (is_variant kd) (rows_of pl)); [|easy]. injection E as <-. exact F. }
  assert (forall kd l rows, chain A (db_header d) kd l -> table_in b DbPlain (db_header d) io kd (DOk rows) -> forallb (is_variant kd) (flat_map (shelf_rows A) l) = true) as HV.
  { intros kd l rows C T. pose proof (HT kd l rows C T) as F. pose proof (iter_rows_is b io DbPlain kd d _ HB (open_fresh b io DbPlain d HO) T) as E. apply iter_rows_iff in E as (j & tb & pl & _ & _ & _ & V).
    clear -F V. induction F as [|r r' m m' E _ IH]; [easy|]. cbn [forallb] in *. apply andb_prop in V as [V1 V2]. rewrite (same_variant kd r r' E) in V1. now rewrite V1, IH. }
  assert (forall kd l, chain A (db_header d) kd l -> chain A' (db_header d) kd l) as HC.
  { intros kd l (j & tb & FT & HP). exists j, tb. split; [exact FT|]. exact (path_work [(i, [(12, Some (entry_row x t id))])] A _ _ _ HP). }
  destruct (in_split _ _ Ii) as (l1 & l2 & EL).
  assert (~ In i l1 /\ ~ In i l2) as [N1 N2].
  { destruct Ce as (j & tb & _ & HP). apply path_nodup in HP. rewrite EL in HP. apply NoDup_remove_2 in HP. rewrite in_app_iff in HP. tauto. }
  assert (shelf_rows A' i = sh_rows s ++ [entry_row x t id]) as ER.
  { unfold shelf_rows, A', work1. cbn [fst snd]. rewrite N.eqb_refl, EA. cbn [option_map]. unfold places. cbn [fold_left]. unfold place. cbn [fst snd]. change ((12 + 3) / 4 * 4 + 6) with 18.
    destruct (sh_free s <? 18) eqn:E18; [lia|]. reflexivity. }
  set (R1 := flat_map (shelf_rows A) l1 ++ sh_rows s). set (R2 := flat_map (shelf_rows A) l2).
  assert (flat_map (shelf_rows A) le = R1 ++ R2) as E0.
  { rewrite EL, flat_map_app. cbn [flat_map]. unfold R1, R2. replace (shelf_rows A i) with (sh_rows s) by (unfold shelf_rows; now rewrite EA). now rewrite <- app_assoc. }
  assert (flat_map (shelf_rows A') le = R1 ++ entry_row x t id :: R2) as E1.
  { rewrite EL, flat_map_app. cbn [flat_map]. rewrite ER. unfold A'. rewrite !rows_elsewhere by easy. unfold R1, R2. now rewrite <- !app_assoc. }
  pose proof (HV _ _ _ Ce Te) as Ve. rewrite E0, forallb_app in Ve. apply andb_prop in Ve as [V1 V2].
  destruct (c88_rows b io d G A [[(i, [(12, Some (entry_row x t id))])]] io' (flat_map (shelf_rows A) ln) (R1 ++ entry_row x t id :: R2) (flat_map (shelf_rows A) lt) HO HST) as (d' & ns' & es' & raw' & O' & Fn' & Fe' & Ft' & HEX).
  { exact HAL. } { apply (sessions_cons _ _ _ _ io'); [exact HSE|constructor]. }
  { change (on_shelves A' (db_header d) KPlaylistTreeNode (flat_map (shelf_rows A) ln)). exists ln. split; [now apply HC|]. split; [unfold A'; now rewrite rows_elsewhere|]. exact (HV _ _ _ Cn Tn). }
  { change (on_shelves A' (db_header d) KPlaylistEntry (R1 ++ entry_row x t id :: R2)). exists le. split; [now apply HC|]. split; [easy|]. rewrite forallb_app, V1. cbn [forallb]. now rewrite V2. }
  { change (on_shelves A' (db_header d) KTrack (flat_map (shelf_rows A) lt)). exists lt. split; [now apply HC|]. split; [unfold A'; now rewrite rows_elsewhere|]. exact (HV _ _ _ Ct Tt). }
  pose proof (same_rows_back node_of_row same_node _ _ _ (HT _ _ _ Cn Tn) Fn) as Fn0. rewrite (forall2_some _ _ _ _ Fn0 Fn') in *. clear ns' Fn'.
  pose proof (same_rows_back track_of_row same_track _ _ _ (HT _ _ _ Ct Tt) Ft) as Ft0. rewrite (forall2_some _ _ _ _ Ft0 Ft') in *. clear raw' Ft'.
  pose proof Fe as Fre. apply (same_rows_back pentry_of_row same_pentry _ _ _ (HT _ _ _ Ce Te)) in Fe. rewrite E0 in Fe. apply Forall2_app_inv_l in Fe as (es1 & es2 & F1 & F2 & ->).
  assert (es' = es1 ++ mk_pentry x t id :: es2) as ->.
  { apply (forall2_some pentry_of_row (R1 ++ entry_row x t id :: R2)); [|exact Fe']. apply Forall2_app; [easy|]. now constructor. }
  assert (Forall (fun e => ~ (pe_playlist e = id /\ pe_index e = x)) (es1 ++ es2)) as HFR.
  { assert (Re = R1 ++ R2) as ERe.
    { destruct SR as (le' & (j' & tb' & FT' & HP') & -> & _). destruct Ce as (j & tb & FT & HP). rewrite FT in FT'. injection FT' as <- <-. now rewrite (path_fun _ _ _ _ _ HP HP'). }
    rewrite ERe in HX. apply Forall_forall. intros [xi u idi] I [EI1 EI2]. cbn [pe_playlist pe_index] in *. subst xi idi.
    pose proof (Forall2_app F1 F2) as F. apply (Forall2_In_r _ _ _ _ F) in I as (r & IR & E). now apply (HX r u IR). }
  destruct (content_insert canon es1 es2 x t id tr HFR) as (ps1 & ps2 & ls1 & new & ls2 & _ & _ & P1 & P2 & L1 & L0 & L2 & C0 & C1).
  exists d', ts, tr, (content canon (entries_map (es1 ++ es2)) (tracks_map tr)), (content canon (entries_map (es1 ++ mk_pentry x t id :: es2)) (tracks_map tr)).
  split; [exact O'|]. split; [exact EO|]. split; [apply HEX; exists tr, ts, (content canon (entries_map (es1 ++ mk_pentry x t id :: es2)) (tracks_map tr)); split; [easy|]; split; [easy|]; split; [intro; apply content_text|easy]|].
  split; [intros id' NE; now apply content_others|]. split; [now exists rn, ns|]. split; [now exists rt, raw|]. split; [exists re, (es1 ++ es2); split; [easy|]; split; [exact Fre|]; intro; apply content_text|].
  exists ps1, ps2, ls1, new, ls2. easy.
Qed.
Print Assumptions c88_entry.
(** The same on disk, for exports to the same directory before and after: the file of the playlist has the line for the track more, the files of the others
    are the same. *)
Theorem c88_files : forall F readF lex b depth w cwd f f' g g' p out o o' io d G A io' i s x t id ln le lt Re, open_file f cwd (pdb_path p) = OpenFile io -> open_file g cwd (pdb_path p) = OpenFile io' ->
  db_open io DbPlain = DOk d -> stores b d G A ->
  chain A (db_header d) KPlaylistTreeNode ln -> chain A (db_header d) KPlaylistEntry le -> chain A (db_header d) KTrack lt -> In i le -> ~ In i ln -> ~ In i lt ->
  on_shelves A (db_header d) KPlaylistEntry Re -> (forall r u, In r Re -> pentry_of_row r <> Some (mk_pentry x u id)) ->
  A i = Some s -> G i = GGrow -> sh_type s = PT KPlaylistEntry -> 18 <= sh_free s -> x < 2 ^ 32 -> t < 2 ^ 32 -> id < 2 ^ 32 ->
  session b DbPlain io [(i, [(12, Some (entry_row x t id))])] io' ->
  execute F readF lex b depth w cwd f (ExportPlaylists p out) o Success f' -> execute F readF lex b depth w cwd g (ExportPlaylists p out) o' Success g' ->
  exists rn ns ts rt raw tr, table_in b DbPlain (db_header d) io KPlaylistTreeNode (DOk rn) /\ Forall2 (fun r x => node_of_row r = Some x) rn ns /\ playlist_tree depth ns = Some (Done ts) /\
    table_in b DbPlain (db_header d) io KTrack (DOk rt) /\ Forall2 (fun r x => track_of_row r = Some x) rt raw /\
    Forall2 (fun x y => fst x = fst y /\ dstr_into_string (snd x) = inl (snd y)) raw tr /\
    (Forall safe ts -> NoDup (map (fun x => dir_of [] (fst (fst x)) ++ [m3u (snd x)]) (flat_map (playlists []) ts)) ->
     forall above id' name, In (above, id', name) (flat_map (playlists []) ts) -> let file := dir_of (locate cwd out) above ++ [m3u name] in
       (id' <> id -> exists bs, f' file = Some (EFile bs) /\ g' file = Some (EFile bs)) /\
       (id' = id -> exists before new after, f' file = Some (EFile (before ++ after)) /\ g' file = Some (EFile (before ++ new ++ after)) /\
          (forall path, last_of (fun x => fst x = t) tr (t, path) -> new = display (join (render (locate cwd p)) (unrooted (utf8_enc path))) ++ [10]) /\ (~ In t (map fst tr) -> new = []))).
Proof.
  intros F readF lex b depth w cwd f f' g g' p out o o' io d G A io' i s x t id ln le lt Re OF OG HO HST Cn Ce Ct Ii Nn Nt SR HX EA EG ETY EF BX BT BI HSE XF XG.
  inversion XF as [c1 o1 x1 H1| | |p1 out1 ops pths f1 ok HP HR E1 E2 E3]; subst; [easy|]. destruct ok; [|easy]. clear XF E3. apply log_run in HR.
  inversion XG as [c1 o1 x1 H1| | |p1 out1 ops' pths' g1 ok HP' HR' E1 E2 E3]; subst; [easy|]. destruct ok; [|easy]. clear XG E3. apply log_run in HR'.
  unfold plan in HP, HP'. rewrite OF, HO in HP. rewrite OG in HP'.
  destruct (c88_entry b io d G A io' i s x t id ln le lt Re HO HST Cn Ce Ct Ii Nn Nt SR HX EA EG ETY EF BX BT BI HSE depth out _ ops HP)
    as (d' & ts & tr & c & c' & O' & EO & EX & HOT & (rn & ns & Tn & Fn & PT) & (rt & raw & Tt & Ft & FD) & _ & ps1 & ps2 & ls1 & new & ls2 & C0 & C1 & L1 & L0 & L2 & _).
  rewrite O', EX in HP'. injection HP' as <-. subst ops. exists rn, ns, ts, rt, raw, tr. do 6 (split; [easy|]). intros HS ND above id' name I file.
  pose proof (c86_all cwd out c ts f f' HS HR ND above id' name I) as K. pose proof (c86_all cwd out c' ts g g' HS HR' ND above id' name I) as K'. fold file in K, K'. split.
  - intro NE. exists (c id'). now rewrite <- (HOT id' NE) at 2.
  - intros ->. exists (flat_map (fun l => l ++ [10]) ls1), (flat_map (fun l => l ++ [10]) new), (flat_map (fun l => l ++ [10]) ls2). rewrite K, K', C0, C1, !flat_map_app. split; [easy|]. split; [easy|].
    split.
    + intros q L. inversion L0 as [|? ? q' ? l' L' N'|? ? ? l' N' M']; subst.
      * inversion N'; subst. pose proof (last_of_fun _ _ _ _ L L') as E. injection E as <-. cbn [flat_map]. now rewrite app_nil_r.
      * apply last_of_in in L as [L _]. destruct N'. now apply (in_map fst) in L.
    + intro N. inversion L0 as [|? ? q' ? l' L' N'|? ? ? l' N' M']; subst; [apply last_of_in in L' as [L' _]; destruct N; now apply (in_map fst) in L'|]. now inversion M'; subst.
Qed.
Print Assumptions c88_files.

(** ** Example: a program fills three empty pages, another one adds an entry *)
Fixpoint do_edits (b : build) (d : database) (es : list edit) : option database :=
  match es with
  | [] => Some d
  | (j, ops) :: es =>
    match load_page b d j with
    | (d1, DOk p) => match Alloc.run b ops p with Ok p' => do_edits b (set_page d1 j p') es | _ => None end
    | _ => None
    end
  end.
Definition do_session (b : build) (io : list N) (es : list edit) : option (list N) :=
  match db_open io DbPlain with
  | DOk d => match do_edits b d es with Some d1 => match flush b d1 with DOk d2 => Some (db_io d2) | _ => None end | None => None end
  | _ => None
  end.
Lemma do_edits_ok b : forall es d d', do_edits b d es = Some d' -> edits b d es d'.
Proof.
  induction es as [|[j ops] es IH]; intros d d' H; cbn [do_edits] in H; [injection H as <-; constructor|]. destruct (load_page b d j) as [d1 [p|e|]] eqn:EL; try easy.
  destruct (Alloc.run b ops p) as [p'|e|] eqn:ER; try easy. apply (edits_cons b d d1 j p ops p' es d'); try easy. now apply IH.
Qed.
Lemma do_session_ok b io es io' : do_session b io es = Some io' -> session b DbPlain io es io'.
Proof.
  unfold do_session. destruct (db_open io DbPlain) as [d|e|] eqn:EO; try easy. destruct (do_edits b d es) as [d1|] eqn:EE; [|easy]. destruct (flush b d1) as [d2|e|] eqn:EF; try easy.
  intros [= <-]. exists d, d1, d2. split; [easy|]. split; [now apply do_edits_ok|]. easy.
Qed.
Definition c88_empty (i : N) (kd : rkind) : page := mk_page (mk_phdr i (PT kd) 9 1 0 (mk_counts 0 0) 0x24 560 0) (PData (mk_dcontent [VInt 1; VInt 0; VInt 0; VInt 0] [] [])).
Definition c88_kind (i : N) : rkind := if i =? 1 then KPlaylistTreeNode else if i =? 2 then KPlaylistEntry else KTrack.
Definition c88_shelves : shelves := fun i => if (1 <=? i) && (i <? 4) then Some (mk_shelf (PT (c88_kind i)) 9 560 0 []) else None.
Definition c88_header : dbhdr := mk_dbhdr 600 3 4 0 7 [mk_table (PT KTrack) 9 3 3; mk_table (PT KPlaylistTreeNode) 9 1 1; mk_table (PT KPlaylistEntry) 9 2 2].
Definition c88_new : list N := Eval vm_compute in match flush Debug (mk_db (repeat 0 2400) DbPlain c88_header [Some (c88_empty 1 KPlaylistTreeNode); Some (c88_empty 2 KPlaylistEntry); Some (c88_empty 3 KTrack)]) with DOk d => db_io d | _ => [] end.
Definition sized (r : row) : N * option row := (match row_heap Debug r with Ok n => n | _ => 0 end, Some r).
Definition c88_filled : list edit :=
  [(1, map sized [c76_node 2 5 0 "Deep"; c76_node 0 2 1 "Sets"; c76_node 0 3 0 "Mix"]); (3, map sized [c76_track 40 7 "One" "/a.mp3"; c76_track 41 8 "Two" "/b.mp3"]);
   (2, map sized [entry_row 1 41 5; entry_row 7 40 5; entry_row 1 40 3])].
Definition c88_io : list N := Eval vm_compute in match do_session Debug c88_new c88_filled with Some io => io | None => [] end.
Definition c88_io2 : list N := Eval vm_compute in match do_session Debug c88_io [(2, [(12, Some (entry_row 4 40 5))])] with Some io => io | None => [] end.
Definition c88_open : database := mk_db c88_io DbPlain c88_header [None; None; None].
Example c88_exports : db_open c88_new DbPlain = DOk (mk_db c88_new DbPlain c88_header [None; None; None]) /\ db_open c88_io DbPlain = DOk c88_open /\
  export Debug 4 c88_open (bytes_of "out") (bytes_of "/usb") = Some (Done
    [MkDirs (bytes_of "out/Sets"); WriteFile (bytes_of "out/Sets/Deep.m3u") (bytes_of "/usb/b.mp3" ++ [10] ++ bytes_of "/usb/a.mp3" ++ [10]);
     MkDirs (bytes_of "out"); WriteFile (bytes_of "out/Mix.m3u") (bytes_of "/usb/a.mp3" ++ [10])]) /\
  exists d', db_open c88_io2 DbPlain = DOk d' /\ export Debug 4 d' (bytes_of "out") (bytes_of "/usb") = Some (Done
    [MkDirs (bytes_of "out/Sets"); WriteFile (bytes_of "out/Sets/Deep.m3u") (bytes_of "/usb/b.mp3" ++ [10] ++ bytes_of "/usb/a.mp3" ++ [10] ++ bytes_of "/usb/a.mp3" ++ [10]);
     MkDirs (bytes_of "out"); WriteFile (bytes_of "out/Mix.m3u") (bytes_of "/usb/a.mp3" ++ [10])]).
Proof. split; [vm_compute; reflexivity|]. split; [vm_compute; reflexivity|]. split; [vm_compute; reflexivity|]. eexists. split; [vm_compute; reflexivity|]. vm_compute. reflexivity. Qed.
Lemma c88_alloc i kd : i < 2 ^ 32 -> ptype_ok DbPlain (PT kd) -> alloc_ok Debug dstr_good DbPlain 600 (mk_phdr i (PT kd) 9 1 0 (mk_counts 0 0) 0x24 560 0) (mk_dcontent [VInt 1; VInt 0; VInt 0; VInt 0] [] []).
Proof.
  intros HI HK. unfold alloc_ok. split; [|split; [easy|split; [reflexivity|split; [|split]]]].
  - unfold dpage_ok. split; [easy|]. split; [easy|]. split. { repeat (split; [now cbn|]). now cbn. } split; [reflexivity|]. split; [repeat constructor|]. split; [reflexivity|]. split; [repeat constructor|].
    split; [repeat constructor|]. split; [reflexivity|]. split; [reflexivity|]. constructor.
  - intros s H. unfold slot_flag in H. cbn [dc_groups] in H. now rewrite (proj2 (getN_None _ _)) in H by (rewrite len_nil; lia).
  - cbn. lia.
  - easy.
Qed.
Lemma c88_fine kd r bs p : row_ok dstr_good r -> row_calc r -> r <> RUnknown -> row_ptype_ok (PT kd) r -> row_write Debug r ([], 0) = Ok (bs, p) -> len bs <= 65528 -> op_fine Debug (PT kd) (sized r).
Proof. intros H1 H2 H3 H4 H5 H6. destruct (c75_predicted Debug r (PT kd) bs p H1 H2 H3 H4 H5 H6) as (n & E & _ & HF). unfold sized. now rewrite E. Qed.
Lemma c88_allowed : allowed Debug (fun _ => GGrow) c88_shelves c88_filled.
Proof.
  unfold c88_filled, allowed. repeat (apply Forall_cons || apply Forall_nil); (eexists; split; [reflexivity|right; split; [reflexivity|]]); cbn [snd map sh_type]; repeat (apply Forall_cons || apply Forall_nil).
  all: eapply c88_fine; [|easy|easy|reflexivity|vm_compute; reflexivity|vm_compute; discriminate].
  all: split; [repeat constructor; cbn; try lia|cbn; try exact I].
  all: try easy.
  all: split; [reflexivity|]; split; [|easy].
  all: repeat (apply Forall_cons || apply Forall_nil); (split; [|split; [intros v E; discriminate E|exact I]]); (split; [vm_compute; discriminate|repeat constructor; lia]).
Qed.
Definition c88_A : shelves := work c88_filled c88_shelves.
Lemma c88_stores : stores Debug c88_open (fun _ => GGrow) c88_A.
Proof.
  destruct c88_exports as (E0 & E1 & _).
  assert (stores Debug (mk_db c88_new DbPlain c88_header [None; None; None]) (fun _ => GGrow) c88_shelves) as H0.
  { apply (open_stores Debug c88_new DbPlain); [| |exact E0|vm_compute; discriminate|].
    - apply Forall_forall. intros x Hx. assert (forallb (fun x => x <? 256) c88_new = true) as E by (vm_compute; reflexivity). rewrite forallb_forall in E. specialize (E x Hx). cbv beta in E. lia.
    - vm_compute. reflexivity.
    - intros i s H. unfold c88_shelves in H. destruct ((1 <=? i) && (i <? 4)) eqn:E; [|easy]. injection H as <-. exists (c88_empty i (c88_kind i)).
      assert (can_grow Debug DbPlain 600 (c88_empty i (c88_kind i))) as HG.
      { eexists _, _. split; [reflexivity|]. apply c88_alloc; [lia|]. unfold c88_kind. destruct (i =? 1); [|destruct (i =? 2)]; cbn; tauto. }
      split; [|split; [reflexivity|]; split; [reflexivity|]; split; [reflexivity|]; split; [reflexivity|constructor]]. unfold good_page. cbn [db_header dh_page_size c88_header dh_next db_kind db_io].
      split; [lia|]. split; [lia|]. split; [now apply grow_consistent|]. split; [constructor|]. split; [easy|].
      assert (i = 1 \/ i = 2 \/ i = 3) as [->|[->| ->]] by lia; eexists; vm_compute; reflexivity. }
  assert (sessions Debug DbPlain c88_new [c88_filled] c88_io) as HS by (apply (sessions_cons _ _ _ _ c88_io); [apply do_session_ok; vm_compute; reflexivity|constructor]).
  assert (allowed Debug (fun _ => GGrow) c88_shelves (List.concat [c88_filled])) as HA by (cbn [List.concat]; rewrite app_nil_r; exact c88_allowed).
  destruct (sessions_stores Debug DbPlain c88_new [c88_filled] c88_io HS _ _ _ E0 H0 HA) as (d' & O & _ & S).
  rewrite E1 in O. injection O as <-. cbn [List.concat] in S. rewrite app_nil_r in S. exact S.
Qed.
Example c88_example : exists G s Re, db_open c88_io DbPlain = DOk c88_open /\ stores Debug c88_open G c88_A /\
  chain c88_A c88_header KPlaylistTreeNode [1] /\ chain c88_A c88_header KPlaylistEntry [2] /\ chain c88_A c88_header KTrack [3] /\
  on_shelves c88_A c88_header KPlaylistEntry Re /\ Re = [entry_row 1 41 5; entry_row 7 40 5; entry_row 1 40 3] /\ (forall r u, In r Re -> pentry_of_row r <> Some (mk_pentry 4 u 5)) /\
  c88_A 2 = Some s /\ G 2 = GGrow /\ sh_type s = PT KPlaylistEntry /\ 18 <= sh_free s /\ session Debug DbPlain c88_io [(2, [(12, Some (entry_row 4 40 5))])] c88_io2.
Proof.
  exists (fun _ => GGrow), (mk_shelf (PT KPlaylistEntry) 9 514 3 [entry_row 1 41 5; entry_row 7 40 5; entry_row 1 40 3]), [entry_row 1 41 5; entry_row 7 40 5; entry_row 1 40 3].
  assert (forall i, 1 <= i < 4 -> exists s, c88_A i = Some s) as HA.
  { intros i HI. assert (i = 1 \/ i = 2 \/ i = 3) as [->|[->| ->]] by lia; eexists; vm_compute; reflexivity. }
  assert (chain c88_A c88_header KPlaylistEntry [2]) as C2 by (eexists _, _; split; [vm_compute; reflexivity|destruct (HA 2) as (s & E); [lia|now apply (path_last _ _ s)]]).
  split; [apply c88_exports|]. split; [exact c88_stores|]. split; [eexists _, _; split; [vm_compute; reflexivity|destruct (HA 1) as (s & E); [lia|now apply (path_last _ _ s)]]|]. split; [exact C2|].
  split; [eexists _, _; split; [vm_compute; reflexivity|destruct (HA 3) as (s & E); [lia|now apply (path_last _ _ s)]]|].
  split; [exists [2]; split; [exact C2|]; split; vm_compute; reflexivity|]. split; [reflexivity|]. split; [intros r u [<-|[<-|[<-|[]]]]; discriminate|].
  split; [vm_compute; reflexivity|]. split; [reflexivity|]. split; [reflexivity|]. split; [vm_compute; discriminate|]. apply do_session_ok. vm_compute. reflexivity.
Qed.
