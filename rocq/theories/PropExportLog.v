(** * Property C97: what export-playlists prints *)
From Coq Require Import NArith ZArith List Bool Lia Sorted String.
From Coq Require Import ZifyBool ZifyNat ZifyN.
From Verif Require Import Base BaseFacts Utf UtfFacts Str Schema Oa Rows Page Db Setting Device DeviceFacts DeviceTree Cli CliFacts CliList Listing Dump Show Anlz Xml XmlDoc Fs FsFacts FsExport Main Player
  ExportLog PropCli PropListing PropExport PropMain PropPlayer.
Import ListNotations.
Local Close Scope string_scope.
Open Scope N_scope.

(** Where the file of a playlist is: [y] has the folders above it, its id and its name. *)
Definition place (cwd : loc) (out : path) (y : list (list N) * N * list N) : loc := dir_of (locate cwd out) (fst (fst y)) ++ [m3u (snd y)].
(** Its path: the output path, the folders and the name, each after a slash. *)
Definition path_to (out : path) (y : list (list N) * N * list N) : path := out ++ flat_map (fun n => 47 :: utf8_enc n) (fst (fst y)) ++ 47 :: utf8_enc (snd y) ++ bytes_of ".m3u".
Definition one_name (n : list N) : Prop := n <> [] /\ ~ In 47 n.

(** C97.  Whatever goes wrong: either nothing was printed and no file has changed, or the lines are the paths of the first playlists [pls] of the tree, in its
    order; all of them if the export succeeded.  What has changed is a new directory or the file of one of the lines.  The files of all lines
    but the last are complete, and that of the last, too, if the export succeeded; if not, it is as before or it has a beginning of its text. *)
Theorem c97_printed : forall F readF lex b depth w cwd f p out o x f' io, execute F readF lex b depth w cwd f (ExportPlaylists p out) o x f' ->
  open_file f cwd (pdb_path p) = OpenFile io -> bytes_ok io ->
  (o = PNothing F /\ x <> Success /\ forall l, f' l = f l) \/
  exists d rn re rt ns es raw tr ts, db_open io DbPlain = DOk d /\ table_in b DbPlain (db_header d) io KPlaylistTreeNode (DOk rn) /\
    table_in b DbPlain (db_header d) io KPlaylistEntry (DOk re) /\ table_in b DbPlain (db_header d) io KTrack (DOk rt) /\
    Forall2 (fun r x => node_of_row r = Some x) rn ns /\ Forall2 (fun r x => pentry_of_row r = Some x) re es /\ Forall2 (fun r x => track_of_row r = Some x) rt raw /\
    Forall2 (fun x y => fst x = fst y /\ dstr_into_string (snd x) = inl (snd y)) raw tr /\ playlist_tree depth ns = Some (Done ts) /\
    exists pls rest qs, flat_map (playlists []) ts = pls ++ rest /\ o = PPaths F (flat_map (fun q => display q ++ [10]) qs) /\ x <> Panicked /\ (x = Success -> rest = []) /\
      List.length qs = List.length pls /\
      (out <> [] -> last out 0 <> 47 -> Forall (fun y => Forall one_name (fst (fst y)) /\ ~ In 47 (snd y)) (flat_map (playlists []) ts) -> qs = map (path_to out) pls) /\
      (Forall safe ts ->
        Forall2 (fun q y => locate cwd q = place cwd out y) qs pls /\
        (forall l, f' l = f l \/ (f l = None /\ f' l = Some EDir) \/ exists y, In y pls /\ l = place cwd out y) /\
        (forall p1 y p2, pls = p1 ++ y :: p2 -> (forall z, In z p2 -> place cwd out z <> place cwd out y) -> x = Success \/ p2 <> [] ->
           exists bs, f' (place cwd out y) = Some (EFile bs) /\ playlist_text (render (locate cwd p)) es tr (snd (fst y)) bs) /\
        (x = Failure -> forall p1 y, pls = p1 ++ [y] -> (forall z, In z p1 -> place cwd out z <> place cwd out y) ->
           f' (place cwd out y) = f (place cwd out y) \/ (f (place cwd out y) = None /\ f' (place cwd out y) = Some EDir) \/
           exists bs k, f' (place cwd out y) = Some (EFile (firstn k bs)) /\ playlist_text (render (locate cwd p)) es tr (snd (fst y)) bs)).
Proof.
  intros F readF lex b depth w cwd f p out o x f' io HX HO HB. inversion HX as [c o' x' HS|p1 out1 e HP|p1 out1 HP|p1 out1 ops qs f'' ok HP HR E1 E2 E3]; subst; [easy|now left|now left|right].
  unfold plan in HP. rewrite HO in HP. destruct (db_open io DbPlain) as [d|e|] eqn:ED; [|easy|easy]. pose proof (export_file b io DbPlain d out (render (locate cwd p)) HB ED depth) as HE. rewrite HP in HE.
  destruct HE as (rn & re & rt & ns & es & raw & tr & ts & T1 & T2 & T3 & F1 & F2 & F3 & F4 & PT & ->). exists d, rn, re, rt, ns, es, raw, tr, ts. do 9 (split; [easy|]). clear HX HP.
  pose proof (log_changed _ _ _ _ _ _ HR) as HC. apply log_pairs in HR as (ws & rest & EW & -> & HA & HD & HF). rewrite walk_pairs in EW.
  set (g := fun y : list (list N) * N * list N => (file_of out y, Cli.content (render (locate cwd p)) (entries_map es) (tracks_map tr) (snd (fst y)))) in EW.
  apply map_eq_app in EW as (pls & rest' & EP & E1 & E2). subst ws rest. exists pls, rest', (map (file_of out) pls). rewrite !map_map in *. cbn [fst g] in *.
  split; [exact EP|]. split; [reflexivity|]. split; [now destruct ok|]. split; [intro E; destruct ok; [|easy]; specialize (HA eq_refl); now destruct rest'|]. split; [now rewrite map_length|]. split.
  - intros N1 N2 HN. apply map_ext_in. intros y HY. rewrite Forall_forall in HN. destruct (HN y) as [H1 H2]; [rewrite EP; apply in_or_app; now left|]. rewrite file_text by easy. unfold path_to. do 3 f_equal. unfold m3u. now rewrite utf8_app.
  - intro HS. pose proof (file_place cwd out ts HS) as HL. rewrite EP in HL. apply Forall_app in HL as [HL _]. rewrite Forall_forall in HL. unfold place. split; [|split; [|split]].
    + clear - HL. induction pls as [|y pls IH]; [constructor|]. constructor; [apply HL; now left|apply IH; intros z Z; apply HL; now right].
    + intro l. destruct (HC l) as [E|[E|I]]; [now left|right; now left|]. right. right. apply in_map_iff in I as (y & <- & I). exists y. split; [easy|]. now rewrite HL.
    + intros p1 y p2 -> ND HY. assert (In y (p1 ++ y :: p2)) as IY by (apply in_or_app; right; now left).
      rewrite map_app in HD. cbn [map] in HD. specialize (HD (map g p1) (file_of out y) _ (map g p2) eq_refl). rewrite map_map in HD. cbn [fst g] in HD. rewrite HL in HD by easy.
      eexists. split; [apply HD|apply content_text].
      * intro I. apply in_map_iff in I as (z & E & I). rewrite HL in E by (apply in_or_app; right; now right). now apply (ND z I).
      * destruct HY as [HY|HY]; [left; now destruct ok|right; now destruct p2].
    + intros HX p1 y -> ND. assert (ok = false) as -> by now destruct ok. assert (In y (p1 ++ [y])) as IY by (apply in_or_app; right; now left).
      rewrite map_app in HF. cbn [map] in HF. specialize (HF eq_refl (map g p1) (file_of out y) _ eq_refl). rewrite map_map in HF. cbn [fst g] in HF. rewrite HL in HF by easy.
      destruct HF as [E|[E|(k & E)]]; [|now left|right; now left|right; right].
      * intro I. apply in_map_iff in I as (z & E & I). rewrite HL in E by (apply in_or_app; now left). now apply (ND z I).
      * eexists. exists k. split; [exact E|apply content_text].
Qed.
Print Assumptions c97_printed.

Lemma last_same {A} (g : A -> loc) l y : In y l -> exists l1 z l2, l = l1 ++ z :: l2 /\ g z = g y /\ forall u, In u l2 -> g u <> g z.
Proof.
  induction l as [|a l IH] using rev_ind; [easy|]. intro I. destruct (loc_eq_dec (g a) (g y)) as [E|NE]; [exists l, a, []; now rewrite E|].
  apply in_app_or in I as [I|[<-|[]]]; [|easy]. destruct (IH I) as (l1 & z & l2 & -> & E & H). exists l1, z, (l2 ++ [a]). rewrite <- app_assoc. split; [easy|]. split; [easy|].
  intros u U. apply in_app_or in U as [U|[<-|[]]]; [now apply H|congruence].
Qed.
(** The lines can be read back: if the output path is text and no name is empty or has a slash or a line feed, then cutting what was printed at the line feeds gives
    the paths.  After success these are the paths of all playlists, and at each of them there is a file. *)
Theorem c97_lines : forall F readF lex b depth w cwd f p out o x f' io t, execute F readF lex b depth w cwd f (ExportPlaylists p out) o x f' ->
  open_file f cwd (pdb_path p) = OpenFile io -> bytes_ok io -> o = PPaths F t ->
  exists d rn ns ts, db_open io DbPlain = DOk d /\ table_in b DbPlain (db_header d) io KPlaylistTreeNode (DOk rn) /\
    Forall2 (fun r x => node_of_row r = Some x) rn ns /\ playlist_tree depth ns = Some (Done ts) /\
    (out <> [] -> last out 0 <> 47 -> utf8 out -> ~ In 10 out ->
     Forall (fun y => Forall one_name (fst (fst y)) /\ Forall (fun n => ~ In 10 n) (fst (fst y)) /\ ~ In 47 (snd y) /\ ~ In 10 (snd y)) (flat_map (playlists []) ts) ->
     exists pls rest, flat_map (playlists []) ts = pls ++ rest /\ cut t = map (path_to out) pls ++ [[]] /\ (x = Success -> rest = []) /\
       (x = Success -> Forall safe ts -> Forall (fun y => exists bs, f' (locate cwd (path_to out y)) = Some (EFile bs)) pls)).
Proof.
  intros F readF lex b depth w cwd f p out o x f' io t HX HO HB ->.
  destruct (c97_printed _ _ _ _ _ _ _ _ _ _ _ _ _ _ HX HO HB) as [[HF _]|(d & rn & re & rt & ns & es & raw & tr & ts & ED & T1 & _ & _ & F1 & _ & _ & _ & PT & pls & rest & qs & EP & ET & _ & HS & _ & HQ & HL)]; [easy|].
  exists d, rn, ns, ts. do 4 (split; [easy|]). intros N1 N2 HU NL HN. exists pls, rest. split; [exact EP|]. injection ET as ->. rewrite HQ in * by (try easy; revert HN; apply Forall_impl; tauto).
  pose proof (nodes_text _ _ _ _ _ _ HB T1 F1) as HT. apply (trees_names ns 0 ts) in HT; [|now apply (child_tree ns depth)]. rewrite EP in HN, HT. apply Forall_app in HN as [HN _], HT as [HT _]. rewrite Forall_forall in HN, HT.
  assert (forall y, In y pls -> display (path_to out y) = path_to out y) as HD.
  { intros y I. destruct (HT y I) as [H1 H2]. unfold path_to. pose proof (display_text (fst (fst y)) (snd y ++ bytes_of ".m3u") H1) as HD. rewrite utf8_app in HD. change (utf8_enc (bytes_of ".m3u")) with (bytes_of ".m3u") in HD.
    rewrite HD; [|apply Forall_app; split; [easy|repeat constructor]]. now apply display_same in HU as ->. }
  split; [|split; [exact HS|]].
  - assert (flat_map (fun q => display q ++ [10]) (map (path_to out) pls) = flat_map (fun l => l ++ [10]) (map (path_to out) pls)) as ->.
    { apply flat_map_ext_in. intros q I. apply in_map_iff in I as (y & <- & I). now rewrite HD. }
    apply cut_lines. rewrite Forall_forall. intros q I. apply in_map_iff in I as (y & <- & I). destruct (HN y I) as (_ & H2 & _ & H4). unfold path_to. intro J. apply in_app_or in J as [J|J]; [easy|].
    apply in_app_or in J as [J|[J|J]]; [|easy|].
    + apply in_flat_map in J as (n & J1 & [J2|J2]); [easy|]. apply in_utf8 in J2; [|lia]. rewrite Forall_forall in H2. now apply (H2 n J1).
    + apply in_app_or in J as [J|J]; [apply in_utf8 in J; [easy|lia]|]. cbn in J. intuition discriminate.
  - intros -> HSF. destruct (HL HSF) as (L1 & _ & L3 & _). rewrite Forall_forall. intros y I. assert (locate cwd (path_to out y) = place cwd out y) as ->.
    { clear - L1 I. induction pls as [|z pls IH]; [easy|]. cbn [map] in L1. inversion L1 as [|? ? ? ? H1 H2]; subst. destruct I as [->|I]; [easy|now apply IH]. }
    destruct (last_same (place cwd out) pls y I) as (l1 & z & l2 & E & EZ & HZ). destruct (L3 l1 z l2 E HZ (or_introl eq_refl)) as (bs & E' & _). exists bs. now rewrite <- EZ.
Qed.
Print Assumptions c97_lines.

(** The example of C87: two playlists, one in a folder. *)
Definition c97_tree : list pnode := [PFolder 2 (bytes_of "Sets") [PPlaylist 5 (bytes_of "Deep")]; PPlaylist 3 (bytes_of "Mix")].
Example c97_example : forall F readF lex w, exists f' t, execute F readF lex Debug 4 w [bytes_of "usb"] usb (ExportPlaylists (bytes_of ".") (bytes_of "lists")) (PPaths F t) Success f' /\
  cut t = [bytes_of "lists/Sets/Deep.m3u"; bytes_of "lists/Mix.m3u"; []] /\ bytes_of "lists" <> [] /\ last (bytes_of "lists") 0 <> 47 /\ utf8 (bytes_of "lists") /\ ~ In 10 (bytes_of "lists") /\
  match db_open c76_io DbPlain with DOk d => get_playlists Debug 4 d | _ => None end = Some (Done c97_tree) /\
  Forall (fun y => Forall one_name (fst (fst y)) /\ Forall (fun n => ~ In 10 n) (fst (fst y)) /\ ~ In 47 (snd y) /\ ~ In 10 (snd y)) (flat_map (playlists []) c97_tree).
Proof.
  intros F readF lex w. destruct (c87_example F readF lex w) as (f' & H & _). exists f'. eexists. split; [exact H|]. split; [vm_compute; reflexivity|]. split; [easy|]. split; [vm_compute; easy|].
  split; [exists (bytes_of "lists"); split; [repeat constructor|reflexivity]|]. split; [cbn; intuition discriminate|].
  split; [vm_compute; reflexivity|]. cbn [c97_tree flat_map playlists List.app]. unfold one_name. repeat constructor; cbn; try easy; intuition discriminate.
Qed.
(** A name with a line feed: a line that is printed names a file that was not written. *)
Theorem c97_line_feed_refuted : exists ts ops f f' ps, Forall safe ts /\ ops = flat_map (fun t => walk (fun _ => []) t (bytes_of "o")) ts /\ run_log [] f ops ps f' true /\
  exists l, In l (cut (flat_map (fun q => display q ++ [10]) ps)) /\ is_m3u (locate [] l) /\ f' (locate [] l) = None.
Proof.
  set (ts := [PPlaylist 1 (bytes_of "a" ++ [10] ++ bytes_of "b")]). set (ops := flat_map (fun t => walk (fun _ => []) t (bytes_of "o")) ts).
  destruct (perform [] root_only ops) as [f' r] eqn:E. assert (r = None) as -> by (apply (f_equal snd) in E; vm_compute in E; now symmetry). pose proof (perform_log _ _ _ _ E) as R.
  exists ts, ops, root_only, f', (file_paths ops). split; [constructor; [|constructor]; cbn; intuition discriminate|]. split; [easy|]. split; [exact R|]. exists (bytes_of "b.m3u").
  split; [vm_compute; right; now left|]. split; [exists [], (bytes_of "b"); reflexivity|]. apply (f_equal fst) in E. cbn [fst] in E. rewrite <- E. vm_compute. reflexivity.
Qed.
Print Assumptions c97_line_feed_refuted.
(** A line is printed before its file is made: here a folder has the place of the file. *)
Theorem c97_early_refuted : exists ts ops f f' ps l, Forall safe ts /\ ops = flat_map (fun t => walk (fun _ => []) t (bytes_of "o")) ts /\ run_log [] f ops ps f' false /\
  In l ps /\ f' (locate [] l) = Some EDir.
Proof.
  set (ts := [PFolder 1 (bytes_of "a.m3u") [PPlaylist 2 (bytes_of "b")]; PPlaylist 3 (bytes_of "a")]). set (ops := flat_map (fun t => walk (fun _ => []) t (bytes_of "o")) ts).
  destruct (perform [] root_only (firstn 3 ops)) as [f' r] eqn:E. assert (r = None) as -> by (apply (f_equal snd) in E; vm_compute in E; now symmetry).
  exists ts, ops, root_only, f', [bytes_of "o/a.m3u/b.m3u"; bytes_of "o/a.m3u"], (bytes_of "o/a.m3u"). split; [repeat constructor; cbn; intuition discriminate|]. split; [easy|]. split.
  - unfold ops, ts in *. cbn [flat_map walk List.app firstn perform] in *.
    match type of E with match ?x with _ => _ end = _ => destruct x as [f1 [e|]] eqn:E1; [easy|] end. eapply log_dirs; [exact E1|].
    match type of E with match ?x with _ => _ end = _ => destruct x as [f2|e] eqn:E2; [|easy] end. refine (log_file _ _ _ _ _ _ _ _ _ E2 _).
    match type of E with match ?x with _ => _ end = _ => destruct x as [f3 [e|]] eqn:E3; [easy|] end. injection E as <-. eapply log_dirs; [exact E3|]. apply log_file_refused.
  - split; [right; now left|]. apply (f_equal fst) in E. cbn [fst] in E. rewrite <- E. vm_compute. reflexivity.
Qed.
Print Assumptions c97_early_refuted.
