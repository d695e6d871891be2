(** * Properties C54 to C56 and C62: the command line program *)
From Coq Require Import NArith ZArith List Bool Lia String Ascii Sorted Relations.
From Verif Require Import Base BaseFacts Utf Str Schema Oa Rows Page Db RowShape Setting Device DeviceFacts DeviceTree Cli CliFacts CliList PropDevice.
Import ListNotations.
Local Close Scope string_scope.
Open Scope N_scope.

(** C54.  [locate cwd p] is where a path leads without symbolic links.  If no name has a slash and no folder is called "..", then one file
    is written for each playlist, in its folders below the output directory, under its name and ".m3u", and directories are made for these. *)
Theorem c54_files : forall cwd out content ts, Forall safe ts ->
  let ops := flat_map (fun t => walk content t out) ts in
  let pls := flat_map (playlists []) ts in
  writes cwd ops = map (fun x => (dir_of (locate cwd out) (fst (fst x)) ++ [m3u (snd x)], content (snd (fst x)))) pls /\
  mkdirs cwd ops = map (fun x => dir_of (locate cwd out) (fst (fst x))) pls.
Proof. exact export_writes. Qed.
Print Assumptions c54_files.
Theorem c54_inside : forall cwd out content ts, Forall safe ts -> forall loc c,
  In (loc, c) (writes cwd (flat_map (fun t => walk content t out) ts)) -> exists rest, rest <> [] /\ loc = locate cwd out ++ rest.
Proof.
  intros cwd out cont ts HS loc c I. destruct (export_writes cwd out cont ts HS) as [E _]. rewrite E in I. apply in_map_iff in I as (x & [= <- _] & _).
  unfold dir_of. rewrite <- app_assoc. eexists. split; [|reflexivity]. now destruct (map utf8_enc (filter counts (fst (fst x)))).
Qed.
Print Assumptions c54_inside.
(** The directory of a file is made before the file, whatever the names are. *)
Theorem c54_order : forall content ts out, exists ds, flat_map (fun t => walk content t out) ts =
  flat_map (fun x : path * path * list N => [MkDirs (fst (fst x)); WriteFile (join (fst (fst x)) (snd (fst x))) (snd x)]) ds.
Proof.
  intros cont ts out. assert (forall t p, exists ds, walk cont t p =
    flat_map (fun x : path * path * list N => [MkDirs (fst (fst x)); WriteFile (join (fst (fst x)) (snd (fst x))) (snd x)]) ds) as H.
  { induction t as [i s ch IH|i s] using pnode_ind2; intro p; cbn [walk]; [|now exists [(p, m3u s, cont i)]].
    generalize (join p (utf8_enc s)). clear p. intro p. induction IH as [|t ch H _ (ds & E)]; [now exists []|]. cbn [flat_map]. destruct (H p) as [d1 ->]. rewrite E.
    exists (d1 ++ ds). now rewrite flat_map_app. }
  induction ts as [|t ts (ds & E)]; [now exists []|]. cbn [flat_map]. destruct (H t out) as [d1 ->]. rewrite E. exists (d1 ++ ds). now rewrite flat_map_app.
Qed.
Print Assumptions c54_order.
(** Other names lead out of the directory.  An absolute name of a playlist or folder: the output directory does not matter. *)
Theorem c54_absolute_playlist : forall cwd content id s p, writes cwd (walk content (PPlaylist id (47 :: s)) p) = [(locate [] (47 :: m3u s), content id)].
Proof. intros. rewrite abs_playlist. reflexivity. Qed.
Print Assumptions c54_absolute_playlist.
Theorem c54_absolute_folder : forall content id s ch p q, walk content (PFolder id (47 :: s) ch) p = walk content (PFolder id (47 :: s) ch) q.
Proof. exact abs_folder. Qed.
Print Assumptions c54_absolute_folder.
(** A folder "..", or a playlist name that begins with "../": the file is beside the output directory. *)
Theorem c54_dotdot : forall cwd content id i s p, ~ In 47 s ->
  writes cwd (walk content (PFolder id [46; 46] [PPlaylist i s]) p) = [(removelast (locate cwd p) ++ [m3u s], content i)] /\
  writes cwd (walk content (PPlaylist i ([46; 46; 47] ++ s)) p) = [(removelast (locate cwd p) ++ [m3u s], content i)].
Proof. intros cwd cont id i s p H. split; [now apply dotdot_folder|now apply dotdot_playlist]. Qed.
Print Assumptions c54_dotdot.
Theorem c54_outside : forall cwd out s rest, locate cwd out <> [] -> rest <> [] -> removelast (locate cwd out) ++ [m3u s] <> locate cwd out ++ rest.
Proof.
  intros cwd out s rest H R E. destruct (exists_last H) as (l & x & EL). rewrite EL, removelast_last in E.
  apply (f_equal (@List.length path)) in E. rewrite !app_length in E. cbn in E. destruct rest; [easy|]. cbn in E. lia.
Qed.
Print Assumptions c54_outside.

Example c54_example :
  let ts := [PFolder 1 (bytes_of "House") [PPlaylist 2 (bytes_of "a b")]; PPlaylist 3 (bytes_of ".."); PFolder 4 [] [PPlaylist 5 (bytes_of "a b")]] in
  Forall safe ts /\
  writes [bytes_of "home"] (flat_map (fun t => walk (fun i => [i]) t (bytes_of "../out/")) ts) =
    [([bytes_of "out"; bytes_of "House"; bytes_of "a b.m3u"], [2]); ([bytes_of "out"; bytes_of "...m3u"], [3]); ([bytes_of "out"; bytes_of "a b.m3u"], [5])].
Proof.
  split; [|vm_compute; reflexivity]. assert (forall s, forallb (fun c => negb (c =? 47)) s = true -> ~ In 47 s) as H.
  { intros s F I. rewrite forallb_forall in F. now apply F in I. }
  repeat constructor; cbn [fold_right safe]; repeat split; try (now apply H); vm_compute; discriminate.
Qed.
(** Two playlists of one name in one folder: the second file replaces the first. *)
Example c54_same_name :
  writes [] (flat_map (fun t => walk (fun i => [i]) t (bytes_of "/out")) [PPlaylist 2 [65]; PPlaylist 3 [65]]) =
    [([bytes_of "out"; bytes_of "A.m3u"], [2]); ([bytes_of "out"; bytes_of "A.m3u"], [3])].
Proof. reflexivity. Qed.

(** C55.  The lines of a playlist: its entries in strictly increasing order of index, of two rows with one index the later; a line for each
    track that exists, by the later row of two with one id. *)
Theorem c55_content : forall canon es ts id, exists ps ls,
  content canon (entries_map es) (tracks_map ts) id = flat_map (fun l => l ++ [10]) ls /\
  StronglySorted (fun x y => fst x < fst y) ps /\
  (forall i t, In (i, t) ps <-> last_of (fun e => pe_playlist e = id /\ pe_index e = i) es (mk_pentry i t id)) /\
  listed canon ts ps ls.
Proof. exact content_spec. Qed.
Print Assumptions c55_content.
(** If a playlist has no two entries of one index and no track is missing and none is double: the tracks of exactly its entries. *)
Theorem c55_all : forall canon es ts id, NoDup (map pe_index (filter (fun e => pe_playlist e =? id) es)) -> NoDup (map fst ts) ->
  (forall e, In e es -> pe_playlist e = id -> In (pe_track e) (map fst ts)) -> exists ps : list (N * list N),
  content canon (entries_map es) (tracks_map ts) id = flat_map (fun x => display (join canon (unrooted (utf8_enc (snd x)))) ++ [10]) ps /\
  StronglySorted (fun x y => fst x < fst y) ps /\
  (forall i p, In (i, p) ps <-> exists t, In (mk_pentry i t id) es /\ In (t, p) ts).
Proof.
  intros canon es ts id ND NT HT. destruct (content_spec canon es ts id) as (ps & ls & EC & S & HP & L).
  assert (forall i t, In (i, t) ps <-> In (mk_pentry i t id) es) as HP'.
  { intros i t. rewrite HP. clear -ND. split; [intros (l1 & l2 & -> & _); apply in_elt|]. intro I. apply in_split in I as (l1 & l2 & ->). exists l1, l2. repeat split.
    rewrite Forall_forall. intros e I [E1 E2]. rewrite filter_app, map_app in ND. cbn [filter pe_playlist] in ND. rewrite N.eqb_refl in ND. cbn [map pe_index] in ND.
    apply NoDup_remove_2 in ND. apply ND. apply in_or_app. right. apply in_map_iff. exists e. split; [easy|]. apply filter_In. split; [easy|]. now apply N.eqb_eq. }
  assert (forall t p, last_of (fun x => fst x = t) ts (t, p) <-> In (t, p) ts) as HL.
  { intros t p. clear -NT. split; [intros (l1 & l2 & -> & _); apply in_elt|]. intro I. apply in_split in I as (l1 & l2 & ->). exists l1, l2. repeat split.
    rewrite Forall_forall. intros e I E. rewrite map_app in NT. cbn [map fst] in NT. apply NoDup_remove_2 in NT. apply NT. apply in_or_app. right. apply in_map_iff. now exists e. }
  assert (forall i t, In (i, t) ps -> In t (map fst ts)) as HK by (intros i t I; apply HP' in I; now apply (HT _ I)).
  assert (exists qs : list (N * list N), flat_map (fun l => l ++ [10]) ls = flat_map (fun x => display (join canon (unrooted (utf8_enc (snd x)))) ++ [10]) qs /\
    Forall2 (fun x y => fst x = fst y /\ In (snd x, snd y) ts) ps qs) as (qs & EQ & F).
  { clear -L HL HK. induction L as [|i t p ps ls HLP L IH|i t ps ls HM L IH].
    - exists []. split; [easy|constructor].
    - destruct IH as (qs & EQ & F); [intros j u I; apply (HK j u); now right|]. exists ((i, p) :: qs). cbn [flat_map snd]. rewrite EQ. split; [easy|]. constructor; [|easy].
      split; [easy|]. now apply HL.
    - destruct HM. apply (HK i t). now left. }
  exists qs. split; [congruence|]. split.
  - clear -S F. induction F as [|x y ps qs [E _] F IH]; [constructor|]. inversion S as [|? ? S1 S2]; subst. constructor; [now apply IH|].
    rewrite Forall_forall in *. intros z I. apply (Forall2_In_r _ _ _ _ F) in I as (w & IW & EW & _). rewrite <- E, <- EW. now apply S2.
  - intros i p. split.
    + intro I. apply (Forall2_In_r _ _ _ _ F) in I as ([j t] & IW & EW & IT). cbn [fst snd] in *. subst j. exists t. split; [now apply HP'|easy].
    + intros (t & IE & IT). apply HP' in IE. apply (Forall2_In_l _ _ _ _ F) in IE as ([j q] & IW & EW & IQ). cbn [fst snd] in *. subst j.
      assert (q = p) as -> by exact (f_equal snd (nodup_inj fst ts (t, q) (t, p) NT IQ IT eq_refl)). exact IW.
Qed.
Print Assumptions c55_all.
(** A line for a path that begins with one slash is the path below the export directory. *)
Theorem c55_line : forall canon p, canon <> [] -> last canon 0 <> 47 -> is_abs p = false -> join canon (strip_slash (47 :: p)) = canon ++ 47 :: p.
Proof.
  intros canon p H1 H2 H3. cbn [strip_slash]. unfold join. rewrite H3. unfold needs_sep. destruct canon as [|c canon]; [easy|].
  now replace (last (c :: canon) 0 =? 47) with false by (symmetry; now apply N.eqb_neq).
Qed.
Print Assumptions c55_line.
(** Finding: with two slashes the export directory is not in the line. *)
Theorem c55_two_slashes : forall canon p, join canon (strip_slash (47 :: 47 :: p)) = 47 :: p.
Proof. reflexivity. Qed.
Print Assumptions c55_two_slashes.
(** The export of a database: the operations for its tree with the contents for its rows. *)
Theorem c55_database : forall b d out canon rows1 rows2 rows3, db_shaped d ->
  snd (iter_rows b KPlaylistTreeNode d) = Some (DOk rows1) ->
  let d1 := fst (iter_rows b KPlaylistTreeNode d) in snd (iter_rows b KPlaylistEntry d1) = Some (DOk rows2) ->
  let d2 := fst (iter_rows b KPlaylistEntry d1) in snd (iter_rows b KTrack d2) = Some (DOk rows3) ->
  exists ns es raw, Forall2 (fun r n => node_of_row r = Some n) rows1 ns /\ Forall2 (fun r e => pentry_of_row r = Some e) rows2 es /\
    Forall2 (fun r x => track_of_row r = Some x) rows3 raw /\
    ((forall i s, In (i, s) raw -> exists p, dstr_into_string s = inl p) -> exists tr,
       Forall2 (fun x y => fst x = fst y /\ dstr_into_string (snd x) = inl (snd y)) raw tr /\
       exists c, (forall id, playlist_text canon es tr id (c id)) /\ forall depth, export b depth d out canon =
         match playlist_tree depth ns with
         | Some (Done ts) => Some (Done (flat_map (fun t => walk c t out) ts))
         | Some (Fail e) => Some (Fail e) | Some Crash => Some Crash | None => None
         end).
Proof.
  intros b d out canon rows1 rows2 rows3 HS H1 d1 H2 d2 H3. destruct (export_rows b d out canon rows1 rows2 rows3 HS H1 H2 H3) as (ns & es & raw & F1 & F2 & F3 & H). exists ns, es, raw. do 3 (split; [easy|]).
  intro HD. destruct (H HD) as (tr & FD & HE). exists tr. split; [easy|]. exists (content canon (entries_map es) (tracks_map tr)). split; [intro; apply content_text|exact HE].
Qed.
Print Assumptions c55_database.

Example c55_example :
  let es := [mk_pentry 2 10 7; mk_pentry 1 11 7; mk_pentry 1 10 8; mk_pentry 3 12 7; mk_pentry 2 11 7] in
  content (bytes_of "/mnt") (entries_map es) (tracks_map [(10, bytes_of "/a"); (11, bytes_of "/b")]) 7 = bytes_of "/mnt/b" ++ [10] ++ bytes_of "/mnt/b" ++ [10].
Proof. reflexivity. Qed.
Example c55_all_example :
  let es := [mk_pentry 2 10 7; mk_pentry 1 11 7; mk_pentry 1 10 8] in let ts := [(10, bytes_of "/a"); (11, bytes_of "/b")] in
  NoDup (map pe_index (filter (fun e => pe_playlist e =? 7) es)) /\ NoDup (map fst ts) /\ (forall e, In e es -> pe_playlist e = 7 -> In (pe_track e) (map fst ts)) /\
  content (bytes_of "/mnt") (entries_map es) (tracks_map ts) 7 = bytes_of "/mnt/b" ++ [10] ++ bytes_of "/mnt/a" ++ [10].
Proof.
  split; [repeat constructor; cbn; lia|]. split; [repeat constructor; cbn; lia|]. split; [|reflexivity].
  intros e I _. cbn in *. repeat (destruct I as [<-|I]; [cbn; tauto|]). destruct I.
Qed.

(** C56.  Without an option the type depends on the file name only. *)
Theorem c56_db : forall p, exists r, guess_db_type p None = Ok r /\
  (r = Some DbPlain <-> file_name p = Some (bytes_of "export.pdb")) /\ (r = Some DbExt <-> file_name p = Some (bytes_of "exportExt.pdb")).
Proof. exact db_guess. Qed.
Print Assumptions c56_db.
Theorem c56_setting : forall p, exists r, guess_setting_type p None = Ok r /\ forall t, r = Some t <-> file_name p = Some (bytes_of (setting_file t)).
Proof. exact setting_guess. Qed.
Print Assumptions c56_setting.
(** An option wins over the name if the path has a file name. *)
Theorem c56_db_option : forall p f t, file_name p = Some f ->
  guess_db_type p (Some (match t with DbPlain => "plain" | DbExt => "ext" end)%string) = Ok (Some t).
Proof. exact db_option. Qed.
Print Assumptions c56_db_option.
Theorem c56_setting_option : forall p f t, file_name p = Some f -> guess_setting_type p (Some (option_of t)) = Ok (Some t).
Proof. exact setting_option. Qed.
Print Assumptions c56_setting_option.
(** Finding: without a file name the option is ignored, and the commands then end successfully without output. *)
Theorem c56_no_name : forall p, file_name p = None ->
  (forall t, guess_db_type p (Some (match t with DbPlain => "plain" | DbExt => "ext" end)%string) = Ok None) /\
  (forall t, guess_setting_type p (Some (option_of t)) = Ok None).
Proof. intros p H. split; intro t; [now apply db_no_name|now apply setting_no_name]. Qed.
Print Assumptions c56_no_name.
(** File names: the part after the last slash, if this is a name; slashes and "/." at the end do not count; none after "..". *)
Theorem c56_file_name : forall dir name, ~ In 47 name -> name <> [] -> name <> [46] -> name <> [46; 46] ->
  file_name (dir ++ 47 :: name) = Some name /\ file_name name = Some name.
Proof. intros dir name H1 H2 H3 H4. split; [now apply file_name_dir|now apply file_name_self]. Qed.
Print Assumptions c56_file_name.
Theorem c56_file_name_end : forall p, file_name (p ++ [47]) = file_name p /\ file_name (p ++ [47; 46]) = file_name p /\ file_name (p ++ [47; 46; 46]) = None.
Proof. intro p. repeat split; [apply file_name_slash|apply file_name_dot|apply file_name_dotdot]. Qed.
Print Assumptions c56_file_name_end.

Example c56_example : guess_db_type (bytes_of "/mnt/PIONEER/rekordbox/export.pdb") None = Ok (Some DbPlain) /\
  guess_db_type (bytes_of "export.pdb") (Some "ext"%string) = Ok (Some DbExt) /\ guess_db_type (bytes_of "x/Export.pdb") None = Ok None /\
  guess_setting_type (bytes_of "MYSETTING2.DAT") None = Ok (Some TMy2) /\ guess_setting_type (bytes_of "a/..") (Some "mysetting"%string) = Ok None.
Proof. repeat split. Qed.

(** C53 for the listing: it has no end iff a row, folder or not, is reachable and its own ancestor; if all strings can be displayed. *)
Theorem c53_listing : forall em artists tracks ns, displayable (map nd_name ns) -> displayable (map snd artists) ->
  displayable (map (fun x => snd (snd x)) tracks) ->
  (forall depth, print_children depth (by_parent ns) em artists tracks 0 0 = None) <->
  exists x, clos_refl_trans_1n N (under ns) 0 x /\ clos_trans_1n N (under ns) x x.
Proof. exact list_forever. Qed.
Print Assumptions c53_listing.
Example c53_listing_example : let ns := [mk_node 0 4 0 (DSShort [65]); mk_node 4 4 0 (DSShort [66])] in
  displayable (map nd_name ns) /\ clos_refl_trans_1n N (under ns) 0 4 /\ clos_trans_1n N (under ns) 4 4.
Proof.
  cbv zeta. split; [intros d I; repeat (destruct I as [<-|I]; [reflexivity|]); destruct I|]. split.
  - econstructor; [|constructor]. eexists. split; [now left|]. easy.
  - constructor. eexists. split; [right; now left|]. easy.
Qed.

(** C62.  If ids are distinct and not 0, the listing shows each row that is connected to the root, folder or not, once, on the level of its
    depth, below its parent (the last line above it of a lower level), in row order among its siblings; after the line of a row come the lines of its entries.  The listing ends
    before the first string that cannot be displayed. *)
Theorem c62_listing : forall em artists tracks ns, NoDup (map nd_id ns) /\ ~ In 0 (map nd_id ns) -> exists v : list (nat * node),
  (forall depth, (List.length ns < depth)%nat -> print_children depth (by_parent ns) em artists tracks 0 0 = Some (shown (flat_map (row_items em artists tracks) v))) /\
  NoDup (map snd v) /\
  (forall n, In n (map snd v) <-> In n ns /\ clos_refl_trans_1n N (under ns) 0 (nd_parent n)) /\
  (forall k n, In (k, n) v -> path_len ns k 0 (nd_parent n)) /\
  (forall k n l1 l2, v = l1 ++ (k, n) :: l2 -> (k = 0%nat /\ nd_parent n = 0) \/
     exists p, last_of (fun y => (fst y < k)%nat) l1 p /\ S (fst p) = k /\ nd_id (snd p) = nd_parent n) /\
  (forall p, clos_refl_trans_1n N (under ns) 0 p -> filter (fun n => nd_parent n =? p) (map snd v) = filter (fun n => nd_parent n =? p) ns).
Proof. exact list_complete. Qed.
Print Assumptions c62_listing.
Theorem c62_all_lines : forall l, (forall x d, In x l -> In d (fst x) -> dstr_display_panics d = false) -> shown l = (map snd l, false).
Proof.
  induction l as [|x l IH]; intro H; [easy|]. unfold shown. cbn [before_bad existsb].
  assert (bad x = false) as ->. { unfold bad. destruct (existsb dstr_display_panics (fst x)) eqn:E; [|easy]. apply existsb_exists in E as (d & I & E). now rewrite (H x d (or_introl eq_refl) I) in E. }
  specialize (IH (fun y d I => H y d (or_intror I))). unfold shown in IH. injection IH as IH1 IH2. cbn [map orb]. now rewrite IH1, IH2.
Qed.
Print Assumptions c62_all_lines.
Theorem c62_panic : forall l x r, (forall y d, In y l -> In d (fst y) -> dstr_display_panics d = false) -> (exists d, In d (fst x) /\ dstr_display_panics d = true) ->
  shown (l ++ x :: r) = (map snd l, true).
Proof.
  intros l x r H (d & I & E). rewrite <- shown_app, (c62_all_lines l H). unfold out_app. cbn [fst snd]. unfold shown. cbn [before_bad existsb].
  assert (bad x = true) as -> by (apply existsb_exists; eauto). cbn [orb map]. now rewrite app_nil_r.
Qed.
Print Assumptions c62_panic.
Example c62_example : let ns := [mk_node 5 7 0 (DSShort [65]); mk_node 0 5 0 (DSShort [66]); mk_node 99 8 0 (DSShort [67]); mk_node 5 3 1 (DSAscii [255])] in
  (NoDup (map nd_id ns) /\ ~ In 0 (map nd_id ns)) /\
  print_children 5 (by_parent ns) [(7, [(1, 20); (2, 21)])] [(3, DSShort [88])] [(20, (3, DSShort [89]))] 0 0 =
    Some ([LNode 0 false (DSShort [66]); LNode 1 false (DSShort [65]); LTrack 1 1 (TFound (DSShort [88]) (DSShort [89])); LTrack 1 2 (TMissing 21)], true).
Proof. split; [split; [repeat constructor; cbn; lia|cbn; lia]|vm_compute; reflexivity]. Qed.
