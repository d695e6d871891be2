(** * Property C90: a new playlist in the database and its file *)
From Coq Require Import NArith ZArith List Bool Lia Sorted String.
From Coq Require Import ZifyBool ZifyNat ZifyN.
From Verif Require Import Base BaseFacts Segs Utf Str StrFacts StrGood Schema SchemaFacts Oa OaFacts OaSpec Rows RowFacts RowSpec Page BitFacts PageFacts PageRw PageSpec Alloc AllocFacts AllocSpec
  Db DbFacts DbFlush DbFresh RowShape Reread Progress Insert Session Dump DumpFacts Setting Device DeviceFacts DeviceTree Cli CliFacts CliList Listing Fs FsFacts FsExport Main Compose Graft
  PropAlloc PropSession PropCli PropListing PropExport PropMain PropCompose.
Import ListNotations.
Local Close Scope string_scope.
Open Scope N_scope.

(** ** The tree *)

(** C90.  One more row for a playlist, anywhere among the rows: every folder with the id of its parent (the root has id 0) has the playlist as one more child,
    all else is as before. *)
Theorem c90_tree : forall depth ns1 n ns2 s ts, nd_folder n = false -> decodes n s -> playlist_tree depth (ns1 ++ ns2) = Some (Done ts) ->
  exists ts', playlist_tree depth (ns1 ++ n :: ns2) = Some (Done ts') /\ gained (nd_parent n) (PPlaylist (nd_id n) s) 0 ts ts'.
Proof. intros depth ns1 n ns2 s ts HF HD H. exact (child_gained ns1 n ns2 s _ 0 (conj HD (or_introl (conj HF (conj eq_refl eq_refl)))) depth 0 ts H). Qed.
Print Assumptions c90_tree.
(** One more row for a folder that has nothing in it: the same, and no playlist is new, gone or moved. *)
Theorem c90_folder : forall depth ns1 n ns2 s ts, nd_folder n = true -> decodes n s -> nd_parent n <> nd_id n -> Forall (fun m => nd_parent m <> nd_id n) (ns1 ++ ns2) ->
  playlist_tree depth (ns1 ++ ns2) = Some (Done ts) ->
  exists ts', playlist_tree (S depth) (ns1 ++ n :: ns2) = Some (Done ts') /\ gained (nd_parent n) (PFolder (nd_id n) s []) 0 ts ts' /\ flat_map (playlists []) ts' = flat_map (playlists []) ts.
Proof.
  intros depth ns1 n ns2 s ts HF HD HP HK H. destruct (child_gained ns1 n ns2 s (PFolder (nd_id n) s []) 1 (conj HD (or_intror (conj HF (conj eq_refl (conj eq_refl (conj HP HK)))))) depth 0 ts H) as (ts' & E & HG).
  exists ts'. split; [exact E|]. split; [exact HG|]. exact (gained_same _ _ _ _ _ HG).
Qed.
Print Assumptions c90_folder.
(** The playlists then: those before, in the same order, and the new one once for each folder with the id of its parent. *)
Theorem c90_playlists : forall p i s ts ts', gained p (PPlaylist i s) 0 ts ts' ->
  woven (fun y => exists a, In (a, p) (all_folders ts) /\ y = (a, i, s)) (flat_map (playlists []) ts) (flat_map (playlists []) ts') /\
  forall a, In (a, p) (all_folders ts) -> In (a, i, s) (flat_map (playlists []) ts').
Proof. intros p i s ts ts' H. exact (gained_playlists p i s ts ts' H). Qed.
Print Assumptions c90_playlists.

(** ** The export *)
Lemma one_row A l n r i s last first : Session.path A last first l -> In i l ->
  A i = Some s -> (n + 3) / 4 * 4 + 6 <= sh_free s ->
  exists R1 R2, flat_map (shelf_rows A) l = R1 ++ R2 /\ flat_map (shelf_rows (work1 A (i, [(n, Some r)]))) l = R1 ++ r :: R2.
Proof.
  intros HP Ii EA EF. destruct (in_split _ _ Ii) as (l1 & l2 & EL). apply path_nodup in HP. rewrite EL in HP. apply NoDup_remove_2 in HP. rewrite in_app_iff in HP.
  exists (flat_map (shelf_rows A) l1 ++ sh_rows s), (flat_map (shelf_rows A) l2). rewrite EL, !flat_map_app. cbn [flat_map]. split.
  - replace (shelf_rows A i) with (sh_rows s) by (unfold shelf_rows; now rewrite EA). now rewrite <- app_assoc.
  - rewrite !rows_elsewhere by tauto. replace (shelf_rows (work1 A (i, [(n, Some r)])) i) with (sh_rows s ++ [r]); [now rewrite <- !app_assoc|].
    unfold shelf_rows, work1. cbn [fst snd]. rewrite N.eqb_refl, EA. cbn [option_map]. unfold places. cbn [fold_left]. unfold place. cbn [fst snd].
    destruct (sh_free s <? (n + 3) / 4 * 4 + 6) eqn:E; [lia|]. reflexivity.
Qed.
(** A program adds a row for a playlist on page [i] of the table, where it fits, and saves.  The next export makes the files of the tree with the new playlist, all with the same
    content as before. *)
Theorem c90_export : forall b io d G A io' i s n r nd name ln le lt, db_open io DbPlain = DOk d -> stores b d G A ->
  chain A (db_header d) KPlaylistTreeNode ln -> chain A (db_header d) KPlaylistEntry le -> chain A (db_header d) KTrack lt -> In i ln -> ~ In i le -> ~ In i lt ->
  A i = Some s -> G i = GGrow -> sh_type s = PT KPlaylistTreeNode -> op_fine b (PT KPlaylistTreeNode) (n, Some r) -> (n + 3) / 4 * 4 + 6 <= sh_free s ->
  node_of_row r = Some nd -> nd_folder nd = false -> decodes nd name ->
  session b DbPlain io [(i, [(n, Some r)])] io' ->
  forall depth out canon ops, export b depth d out canon = Some (Done ops) ->
  exists d' ts ts' es tr, db_open io' DbPlain = DOk d' /\
    (exists c, (forall id, playlist_text canon es tr id (c id)) /\ ops = flat_map (fun t => walk c t out) ts /\ export b depth d' out canon = Some (Done (flat_map (fun t => walk c t out) ts'))) /\
    gained (nd_parent nd) (PPlaylist (nd_id nd) name) 0 ts ts' /\
    (exists rn ns, table_in b DbPlain (db_header d) io KPlaylistTreeNode (DOk rn) /\ Forall2 (fun r x => node_of_row r = Some x) rn ns /\ playlist_tree depth ns = Some (Done ts)) /\
    (exists re, table_in b DbPlain (db_header d) io KPlaylistEntry (DOk re) /\ Forall2 (fun r x => pentry_of_row r = Some x) re es) /\
    (exists rt raw, table_in b DbPlain (db_header d) io KTrack (DOk rt) /\ Forall2 (fun r x => track_of_row r = Some x) rt raw /\
       Forall2 (fun x y => fst x = fst y /\ dstr_into_string (snd x) = inl (snd y)) raw tr).
Proof.
  intros b io d G A io' i s n r nd name ln le lt HO HST Cn Ce Ct Ii Ne Nt EA EG ETY HFI EF ENR HNF HDE HSE depth out canon ops HE.
  assert (allowed b G A [(i, [(n, Some r)])]) as HAL.
  { constructor; [|constructor]. exists s. split; [exact EA|]. right. split; [exact EG|]. rewrite ETY. constructor; [exact HFI|constructor]. }
  pose proof (stores_bytes b io DbPlain d G A HO HST) as HB.
  pose proof (export_file b io DbPlain d out canon HB HO depth) as H0. rewrite HE in H0. destruct H0 as (rn & re & rt & ns & es & raw & tr & ts & Tn & Te & Tt & Fn & Fe & Ft & FD & PT & EO).
  set (A' := work1 A (i, [(n, Some r)])).
  assert (forall kd l rows, chain A (db_header d) kd l -> table_in b DbPlain (db_header d) io kd (DOk rows) -> Forall2 same_values (flat_map (shelf_rows A) l) rows) as HT.
  { intros kd l rows (j & tb & FT & HP) T. pose proof (iter_rows_is b io DbPlain kd d _ HB (open_fresh b io DbPlain d HO) T) as E. destruct (path_linked b d G A _ _ _ HST HP) as (pl & LK & _ & F).
    rewrite (iter_rows_linked b kd d j tb pl FT LK) in E. unfold rows_as in E. destruct (forallb (is_variant kd) (rows_of pl)); [|easy]. injection E as <-. exact F. }
  assert (forall kd l rows, chain A (db_header d) kd l -> table_in b DbPlain (db_header d) io kd (DOk rows) -> forallb (is_variant kd) (flat_map (shelf_rows A) l) = true) as HV.
  { intros kd l rows C T. pose proof (HT kd l rows C T) as F. pose proof (iter_rows_is b io DbPlain kd d _ HB (open_fresh b io DbPlain d HO) T) as E. apply iter_rows_iff in E as (j & tb & pl & _ & _ & _ & V).
    clear -F V. induction F as [|r r' m m' E _ IH]; [easy|]. cbn [forallb] in *. apply andb_prop in V as [V1 V2]. rewrite (same_variant kd r r' E) in V1. now rewrite V1, IH. }
  assert (forall kd l, chain A (db_header d) kd l -> chain A' (db_header d) kd l) as HC.
  { intros kd l (j & tb & FT & HP). exists j, tb. split; [exact FT|]. exact (path_work [(i, [(n, Some r)])] A _ _ _ HP). }
  assert (exists R1 R2, flat_map (shelf_rows A) ln = R1 ++ R2 /\ flat_map (shelf_rows A') ln = R1 ++ r :: R2) as (R1 & R2 & E0 & E1).
  { destruct Cn as (j & tb & FT & HP). exact (one_row A ln n r i s _ _ HP Ii EA EF). }
  pose proof (HV _ _ _ Cn Tn) as Vn. rewrite E0, forallb_app in Vn. apply andb_prop in Vn as [V1 V2].
  assert (is_variant KPlaylistTreeNode r = true) as VR.
  { destruct r as [k vs oc|]; [|easy]. cbn [node_of_row] in ENR. now destruct k. }
  destruct (c88_rows b io d G A [[(i, [(n, Some r)])]] io' (R1 ++ r :: R2) (flat_map (shelf_rows A) le) (flat_map (shelf_rows A) lt) HO HST) as (d' & ns' & es' & raw' & O' & Fn' & Fe' & Ft' & HEX).
  { exact HAL. } { apply (sessions_cons _ _ _ _ io'); [exact HSE|constructor]. }
  { change (on_shelves A' (db_header d) KPlaylistTreeNode (R1 ++ r :: R2)). exists ln. split; [now apply HC|]. split; [easy|]. rewrite forallb_app, V1. cbn [forallb]. now rewrite V2, VR. }
  { change (on_shelves A' (db_header d) KPlaylistEntry (flat_map (shelf_rows A) le)). exists le. split; [now apply HC|]. split; [unfold A'; now rewrite rows_elsewhere|]. exact (HV _ _ _ Ce Te). }
  { change (on_shelves A' (db_header d) KTrack (flat_map (shelf_rows A) lt)). exists lt. split; [now apply HC|]. split; [unfold A'; now rewrite rows_elsewhere|]. exact (HV _ _ _ Ct Tt). }
  pose proof (same_rows_back pentry_of_row same_pentry _ _ _ (HT _ _ _ Ce Te) Fe) as Fe0. rewrite (forall2_some _ _ _ _ Fe0 Fe') in *. clear es' Fe'.
  pose proof (same_rows_back track_of_row same_track _ _ _ (HT _ _ _ Ct Tt) Ft) as Ft0. rewrite (forall2_some _ _ _ _ Ft0 Ft') in *. clear raw' Ft'.
  pose proof (same_rows_back node_of_row same_node _ _ _ (HT _ _ _ Cn Tn) Fn) as Fn0. rewrite E0 in Fn0. apply Forall2_app_inv_l in Fn0 as (ns1 & ns2 & F1 & F2 & ENS).
  assert (ns' = ns1 ++ nd :: ns2) as ->.
  { apply (forall2_some node_of_row (R1 ++ r :: R2)); [|exact Fn']. apply Forall2_app; [easy|]. now constructor. }
  rewrite ENS in PT. destruct (c90_tree depth ns1 nd ns2 name ts HNF HDE PT) as (ts' & PT' & HG). rewrite <- ENS in PT.
  exists d', ts, ts', es, tr. split; [exact O'|]. split; [exists (content canon (entries_map es) (tracks_map tr)); split; [intro; apply content_text|]; split; [exact EO|]; apply HEX; exists tr, ts', (content canon (entries_map es) (tracks_map tr)); split; [easy|]; split; [easy|]; split; [intro; apply content_text|easy]|]. split; [exact HG|]. split; [now exists rn, ns|]. split; [now exists re|]. now exists rt, raw.
Qed.
Print Assumptions c90_export.
(** The same on disk, for exports to the same directory before and after: all files of playlists before are the same, and in the directory of the parent there
    is one more, with the lines for the entries with its id; none of them, no lines. *)
Theorem c90_files : forall F readF lex b depth w cwd f f' g g' p out o o' io d G A io' i s n r nd name ln le lt, open_file f cwd (pdb_path p) = OpenFile io -> open_file g cwd (pdb_path p) = OpenFile io' ->
  db_open io DbPlain = DOk d -> stores b d G A ->
  chain A (db_header d) KPlaylistTreeNode ln -> chain A (db_header d) KPlaylistEntry le -> chain A (db_header d) KTrack lt -> In i ln -> ~ In i le -> ~ In i lt ->
  A i = Some s -> G i = GGrow -> sh_type s = PT KPlaylistTreeNode -> op_fine b (PT KPlaylistTreeNode) (n, Some r) -> (n + 3) / 4 * 4 + 6 <= sh_free s ->
  node_of_row r = Some nd -> nd_folder nd = false -> decodes nd name ->
  session b DbPlain io [(i, [(n, Some r)])] io' ->
  execute F readF lex b depth w cwd f (ExportPlaylists p out) o Success f' -> execute F readF lex b depth w cwd g (ExportPlaylists p out) o' Success g' ->
  exists rn ns ts ts' re es, table_in b DbPlain (db_header d) io KPlaylistTreeNode (DOk rn) /\ Forall2 (fun r x => node_of_row r = Some x) rn ns /\ playlist_tree depth ns = Some (Done ts) /\
    gained (nd_parent nd) (PPlaylist (nd_id nd) name) 0 ts ts' /\
    table_in b DbPlain (db_header d) io KPlaylistEntry (DOk re) /\ Forall2 (fun r x => pentry_of_row r = Some x) re es /\
    (Forall safe ts' -> NoDup (map (fun x => dir_of [] (fst (fst x)) ++ [m3u (snd x)]) (flat_map (playlists []) ts')) ->
     (forall above id' name', In (above, id', name') (flat_map (playlists []) ts) -> let file := dir_of (locate cwd out) above ++ [m3u name'] in exists bs, f' file = Some (EFile bs) /\ g' file = Some (EFile bs)) /\
     forall above, In (above, nd_parent nd) (all_folders ts) -> exists ps ls tr rt raw, g' (dir_of (locate cwd out) above ++ [m3u name]) = Some (EFile (flat_map (fun l => l ++ [10]) ls)) /\
       StronglySorted (fun x y => fst x < fst y) ps /\ (forall x t, In (x, t) ps <-> last_of (fun e => pe_playlist e = nd_id nd /\ pe_index e = x) es (mk_pentry x t (nd_id nd))) /\
       listed (render (locate cwd p)) tr ps ls /\ table_in b DbPlain (db_header d) io KTrack (DOk rt) /\ Forall2 (fun r x => track_of_row r = Some x) rt raw /\
       Forall2 (fun x y => fst x = fst y /\ dstr_into_string (snd x) = inl (snd y)) raw tr /\
       ((forall e, In e es -> pe_playlist e <> nd_id nd) -> ls = [])).
Proof.
  intros F readF lex b depth w cwd f f' g g' p out o o' io d G A io' i s n r nd name ln le lt OF OG HO HST Cn Ce Ct Ii Ne Nt EA EG ETY HFI EF ENR HNF HDE HSE XF XG.
  inversion XF as [c1 o1 x1 H1| | |p1 out1 ops pths f1 ok HP HR E1 E2 E3]; subst; [easy|]. destruct ok; [|easy]. clear XF E3. apply log_run in HR.
  inversion XG as [c1 o1 x1 H1| | |p1 out1 ops' pths' g1 ok HP' HR' E1 E2 E3]; subst; [easy|]. destruct ok; [|easy]. clear XG E3. apply log_run in HR'.
  unfold plan in HP, HP'. rewrite OF, HO in HP. rewrite OG in HP'.
  destruct (c90_export b io d G A io' i s n r nd name ln le lt HO HST Cn Ce Ct Ii Ne Nt EA EG ETY HFI EF ENR HNF HDE HSE depth out _ ops HP)
    as (d' & ts & ts' & es & tr & O' & (c & HTX & EO & EX) & HG & (rn & ns & Tn & Fn & PT) & (re & Te & Fe) & (rt & raw & Tt & Ft & FD)).
  rewrite O', EX in HP'. injection HP' as <-. subst ops. exists rn, ns, ts, ts', re, es. do 6 (split; [easy|]). intros HS ND. destruct (c90_playlists _ _ _ _ _ HG) as [W1 W2].
  pose proof (woven_nodup _ _ _ _ W1 ND) as ND0. pose proof (gained_safe _ _ _ _ HG HS) as HS0. split.
  - intros above id' name' I file. eexists. split.
    + exact (c86_all cwd out _ ts f f' HS0 HR ND0 above id' name' I).
    + exact (c86_all cwd out _ ts' g g' HS HR' ND above id' name' (woven_in _ _ _ _ W1 I)).
  - intros above I. destruct (HTX (nd_id nd)) as (ps & ls & EC & SO & HL & LI). exists ps, ls, tr, rt, raw.
    split; [rewrite <- EC; exact (c86_all cwd out _ ts' g g' HS HR' ND above (nd_id nd) name (W2 above I))|]. do 6 (split; [easy|]).
    intro NO. destruct ps as [|[x t] ps]; [now inversion LI|]. pose proof (proj1 (HL x t) (or_introl eq_refl)) as L. apply last_of_in in L as [L [L1 _]]. now destruct (NO _ L).
Qed.
Print Assumptions c90_files.

(** ** Example: a further playlist in the folder of C88's database *)
Definition c90_row : row := c76_node 2 9 0 "Late".
Definition c90_io : list N := Eval vm_compute in match do_session Debug c88_io [(1, [sized c90_row])] with Some io => io | None => [] end.
Example c90_exports : exists d', db_open c90_io DbPlain = DOk d' /\ export Debug 4 d' (bytes_of "out") (bytes_of "/usb") = Some (Done
    [MkDirs (bytes_of "out/Sets"); WriteFile (bytes_of "out/Sets/Deep.m3u") (bytes_of "/usb/b.mp3" ++ [10] ++ bytes_of "/usb/a.mp3" ++ [10]);
     MkDirs (bytes_of "out/Sets"); WriteFile (bytes_of "out/Sets/Late.m3u") [];
     MkDirs (bytes_of "out"); WriteFile (bytes_of "out/Mix.m3u") (bytes_of "/usb/a.mp3" ++ [10])]).
Proof. eexists. split; [vm_compute; reflexivity|]. vm_compute. reflexivity. Qed.
Lemma c90_fine : exists n, sized c90_row = (n, Some c90_row) /\ n + 3 <= 40 /\ op_fine Debug (PT KPlaylistTreeNode) (n, Some c90_row).
Proof.
  assert (op_fine Debug (PT KPlaylistTreeNode) (sized c90_row)) as H.
  { eapply c88_fine; [|easy|easy|reflexivity|vm_compute; reflexivity|vm_compute; discriminate]. split; [repeat constructor; cbn; try lia|cbn; try exact I]. all: easy. }
  assert (exists n, sized c90_row = (n, Some c90_row) /\ n + 3 <= 40) as (n & EN & LN) by (eexists; split; [vm_compute; reflexivity|]; vm_compute; discriminate).
  exists n. split; [exact EN|]. split; [exact LN|]. rewrite <- EN. exact H.
Qed.
Lemma c90_shelf : exists s, c88_A 1 = Some s /\ sh_type s = PT KPlaylistTreeNode /\ 46 <= sh_free s.
Proof. eexists. split; [vm_compute; reflexivity|]. split; [reflexivity|]. vm_compute. discriminate. Qed.
Lemma c90_session : session Debug DbPlain c88_io [(1, [sized c90_row])] c90_io.
Proof. apply do_session_ok. vm_compute. reflexivity. Qed.
Lemma c90_room n s : n + 3 <= 40 -> 46 <= sh_free s -> (n + 3) / 4 * 4 + 6 <= sh_free s.
Proof. intros H1 H2. pose proof (N.mul_div_le (n + 3) 4). lia. Qed.
Example c90_example : exists G s n nd, db_open c88_io DbPlain = DOk c88_open /\ stores Debug c88_open G c88_A /\
  chain c88_A c88_header KPlaylistTreeNode [1] /\ chain c88_A c88_header KPlaylistEntry [2] /\ chain c88_A c88_header KTrack [3] /\
  c88_A 1 = Some s /\ G 1 = GGrow /\ sh_type s = PT KPlaylistTreeNode /\ op_fine Debug (PT KPlaylistTreeNode) (n, Some c90_row) /\ (n + 3) / 4 * 4 + 6 <= sh_free s /\
  node_of_row c90_row = Some nd /\ nd_folder nd = false /\ decodes nd (bytes_of "Late") /\ session Debug DbPlain c88_io [(1, [(n, Some c90_row)])] c90_io.
Proof.
  destruct c90_fine as (n & EN & LN & HF). destruct c90_shelf as (s & E1 & E2 & E3). pose proof c90_session as HS. rewrite EN in HS. pose proof (c90_room n s LN E3) as HR.
  destruct c88_example as (G0 & s0 & Re & HO & _ & C1 & C2 & C3 & _). exists (fun _ => GGrow), s, n, (mk_node 2 9 0 (DSShort (bytes_of "Late"))).
  split; [exact HO|]. split; [exact c88_stores|]. split; [exact C1|]. split; [exact C2|]. split; [exact C3|]. split; [exact E1|]. split; [reflexivity|]. split; [exact E2|].
  split; [exact HF|]. split; [exact HR|]. split; [reflexivity|]. split; [reflexivity|]. split; [reflexivity|]. exact HS.
Qed.
