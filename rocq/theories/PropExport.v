(** * Exports and the file system: C86 *)
From Coq Require Import NArith ZArith List Bool Lia String.
From Coq Require Import ZifyBool ZifyNat ZifyN.
From Verif Require Import Base BaseFacts Utf Str Schema Oa Rows Page Db Setting Device DeviceTree Cli CliFacts Fs FsFacts FsExport PropCli.
Import ListNotations.
Local Close Scope string_scope.
Open Scope N_scope.

(** C86.  What an export does to the files of a system ([run]: with any faults, [perform]: without).

    Whatever is in the database, whatever the names are and whatever goes wrong: directories stay, a file that is not called *.m3u keeps
    its content (so no database, settings or analysis file and no track is damaged), no file is removed, and what is new are directories
    and files called *.m3u. *)
Theorem c86_kept : forall b depth d out canon ops cwd f f' ok, export b depth d out canon = Some (Done ops) -> run cwd f ops f' ok -> forall l,
  match f l with
  | Some EDir => f' l = Some EDir
  | Some (EFile c) => (exists c', f' l = Some (EFile c')) /\ (~ is_m3u l -> f' l = Some (EFile c))
  | None => f' l = None \/ f' l = Some EDir \/ (is_m3u l /\ exists c, f' l = Some (EFile c))
  end.
Proof.
  intros b depth d out canon ops cwd f f' ok HX HR l. assert (exists cont ts, ops = flat_map (fun t => walk cont t out) ts) as (cont & ts & ->).
  { unfold export in HX. destruct (get_playlists b depth d) as [[ts|e|]|]; try easy. destruct (table_rows b KPlaylistEntry pentry_of_row _) as [es|e|]; try easy.
    destruct (track_paths b _) as [[tr|e|]|]; try easy. injection HX as <-. eauto. }
  apply run_changed in HR. specialize (HR l). destruct HR as [E|[(A & B & _)|(A & B & C)]].
  - rewrite E. destruct (f l) as [[|c]|]; [easy|split; eauto|now left].
  - rewrite A. right. now left.
  - apply export_files in C. destruct (f l) as [[|c]|]; [easy|split; [easy|tauto]|]. right. now right.
Qed.
Print Assumptions c86_kept.

(** With safe names (C54) all changes are below the output directory, but for the directories of its path, which are made if they are missing. *)
Theorem c86_inside : forall cwd out content ts f f' ok, Forall safe ts -> run cwd f (flat_map (fun t => walk content t out) ts) f' ok -> forall l, f' l <> f l ->
  (exists r, l = locate cwd out ++ r) \/ (f l = None /\ f' l = Some EDir /\ exists k, l = fold_left step (firstn k (pieces out)) (start cwd out)).
Proof.
  intros cwd out cont ts f f' ok HS HR l HN. pose proof (run_changed _ _ _ _ _ HR l) as HC. destruct HC as [E|[(A & B & p & k & I & EL)|(A & B & p & c & I & EL)]]; [easy| |].
  - apply in_flat_map in I as (t & T & I). rewrite Forall_forall in HS. destruct (walk_dirs cont t (HS t T) out p I cwd) as (E1 & qs & E2 & HQ). rewrite E1, E2, firstn_app, fold_left_app in EL.
    destruct (Nat.le_gt_cases k (List.length (pieces out))) as [L|L].
    + right. split; [easy|]. split; [easy|]. exists k. replace (k - List.length (pieces out))%nat with 0%nat in EL by lia. exact EL.
    + left. rewrite (firstn_all2 (pieces out)), <- locate_pieces in EL by lia. rewrite EL. apply step_down. rewrite <- (firstn_skipn (k - List.length (pieces out)) qs) in HQ. now apply Forall_app in HQ as [HQ _].
  - left. destruct (c54_inside cwd out cont ts HS l c) as (r & _ & ->); [|now exists r]. unfold writes. apply in_flat_map. exists (WriteFile p c). split; [easy|]. left. now rewrite EL.
Qed.
Print Assumptions c86_inside.

(** After an export that ends without error, each playlist is in its file (C54, C55), unless a later one has the same place. *)
Theorem c86_content : forall cwd out content ts f f' p1 above id name p2, Forall safe ts -> run cwd f (flat_map (fun t => walk content t out) ts) f' true ->
  flat_map (playlists []) ts = p1 ++ (above, id, name) :: p2 ->
  (forall x, In x p2 -> dir_of [] (fst (fst x)) ++ [m3u (snd x)] <> dir_of [] above ++ [m3u name]) ->
  f' (dir_of (locate cwd out) above ++ [m3u name]) = Some (EFile (content id)).
Proof.
  intros cwd out cont ts f f' p1 above id name p2 HS HR HP HN. destruct (c54_files cwd out cont ts HS) as [EW _]. rewrite HP, map_app in EW. cbn [map fst snd] in EW.
  apply (run_content _ _ _ _ _ HR eq_refl _ _ _ _ EW). rewrite map_map. cbn [fst]. intro I. apply in_map_iff in I as (x & E & IX). apply (HN x IX). unfold dir_of in *. cbn [List.app].
  rewrite <- !app_assoc in E. now apply app_inv_head in E.
Qed.
Print Assumptions c86_content.
(** All of them are there if no two have the same place. *)
Theorem c86_all : forall cwd out content ts f f', Forall safe ts -> run cwd f (flat_map (fun t => walk content t out) ts) f' true ->
  NoDup (map (fun x => dir_of [] (fst (fst x)) ++ [m3u (snd x)]) (flat_map (playlists []) ts)) ->
  forall above id name, In (above, id, name) (flat_map (playlists []) ts) -> f' (dir_of (locate cwd out) above ++ [m3u name]) = Some (EFile (content id)).
Proof.
  intros cwd out cont ts f f' HS HR ND above id name I. destruct (in_split _ _ I) as (p1 & p2 & E). apply (c86_content cwd out cont ts f f' p1 above id name p2); [easy|easy|easy|].
  intros x IX EQ. rewrite E, map_app in ND. cbn [map fst snd] in ND. apply NoDup_remove_2 in ND. apply ND, in_or_app. right. apply in_map_iff. now exists x.
Qed.
Print Assumptions c86_all.

(** When it succeeds.  The names have no slash and no zero byte and no folder is called "", "." or ".."; [b] is the directory that the
    beginning [o1] of the output path leads to, [o2] are the names after that. *)
Theorem c86_exact : forall cwd out content ts f o1 o2 b, Forall strict ts -> has_nul out = false -> pieces out = o1 ++ o2 -> Forall real o2 -> enter f (start cwd out) o1 = inl b ->
  let ops := flat_map (fun t => walk content t out) ts in let pls := flat_map (playlists []) ts in
  ((exists f', perform cwd f ops = (f', None)) <-> fits b o2 f pls) /\ (forall f', run cwd f ops f' true -> fits b o2 f pls).
Proof.
  intros cwd out cont ts f o1 o2 b HS HN HP HR HE ops pls.
  assert (ops = ops_of cont out pls) as EO.
  { unfold ops, ops_of, pls. rewrite flat_map_flat_map. apply flat_map_ext_in. intros t _. apply (walk_list cont out t []). }
  assert (Forall good pls) as HG.
  { apply Forall_forall. intros x I. apply in_flat_map in I as (t & T & I). rewrite Forall_forall in HS. pose proof (strict_playlists t (HS t T) [] (Forall_nil _)) as K. rewrite Forall_forall in K. now apply K. }
  rewrite EO. split; [split|].
  - intros (f' & H). apply perform_run in H. now apply (run_fits cwd out cont o1 o2 b pls f f').
  - intro H. apply (perform_fits cwd out cont o1 o2 b pls HN HP HR HG pls f); [apply incl_refl|easy|easy].
  - intros f' H. now apply (run_fits cwd out cont o1 o2 b pls f f').
Qed.
Print Assumptions c86_exact.
(** In particular with a new or empty output directory, if no folder is called like the file of a playlist. *)
Theorem c86_fresh : forall cwd out content ts f o1 o2 b, Forall strict ts -> has_nul out = false -> pieces out = o1 ++ o2 -> Forall real o2 -> enter f (start cwd out) o1 = inl b ->
  (forall r, begins r o2 -> no_file f (b ++ r)) -> (forall r, r <> [] -> f (b ++ o2 ++ r) = None) ->
  (forall x n s, In x (flat_map (playlists []) ts) -> In n (fst (fst x)) -> utf8_enc n <> m3u s) ->
  exists f', perform cwd f (flat_map (fun t => walk content t out) ts) = (f', None).
Proof.
  intros cwd out cont ts f o1 o2 b HS HN HP HR HE HF HB HM. apply (proj1 (c86_exact cwd out cont ts f o1 o2 b HS HN HP HR HE)). intros x IX. split; [|split].
  - intros r (Hr & q & HQ) c. unfold below in HQ. destruct (Nat.le_gt_cases (List.length r) (List.length o2)) as [L|L].
    + apply HF. split; [easy|]. exists (skipn (List.length r) o2). apply (f_equal (firstn (List.length r))) in HQ. rewrite !firstn_app, firstn_all, Nat.sub_diag in HQ. cbn [firstn] in HQ.
      replace (List.length r - List.length o2)%nat with 0%nat in HQ by lia. cbn [firstn] in HQ. rewrite !app_nil_r in HQ. rewrite <- HQ at 1. now rewrite firstn_skipn.
    + assert (r = o2 ++ skipn (List.length o2) r) as E.
      { pose proof (f_equal (firstn (List.length o2)) HQ) as H. rewrite !firstn_app, firstn_all, Nat.sub_diag in H. cbn [firstn] in H. replace (List.length o2 - List.length r)%nat with 0%nat in H by lia.
        cbn [firstn] in H. rewrite !app_nil_r in H. rewrite H at 1. now rewrite firstn_skipn. }
      rewrite E, HB; [easy|]. intro Z. apply (f_equal (@List.length path)) in Z. rewrite skipn_length in Z. cbn in Z. lia.
  - unfold below. rewrite <- app_assoc, HB; [easy|]. now destruct (map utf8_enc (fst (fst x))).
  - intros y IY (_ & q & HQ). unfold below in HQ. rewrite <- !app_assoc in HQ. apply app_inv_head in HQ.
    assert (In (m3u (snd x)) (map utf8_enc (fst (fst y)))) as I by (rewrite HQ; apply in_or_app; right; now left). apply in_map_iff in I as (n & EN & I). now apply (HM y n (snd x)).
Qed.
Print Assumptions c86_fresh.

(** An export that succeeded can be repeated and changes nothing. *)
Theorem c86_again : forall cwd f ops f', run cwd f ops f' true -> exists f'', perform cwd f' ops = (f'', None) /\ forall l, f'' l = f' l.
Proof. exact run_again. Qed.
Print Assumptions c86_again.
(** An export that would succeed but for faults can be repeated after any of them: it succeeds, and the playlists are there ([c86_content]). *)
Theorem c86_retry : forall cwd out content ts f f1 ok o1 o2 b, sound cwd f -> Forall strict ts -> has_nul out = false -> pieces out = o1 ++ o2 -> Forall real o2 ->
  enter f (start cwd out) o1 = inl b -> let ops := flat_map (fun t => walk content t out) ts in
  (exists f', perform cwd f ops = (f', None)) -> run cwd f ops f1 ok -> exists f2, perform cwd f1 ops = (f2, None).
Proof.
  intros cwd out cont ts f f1 ok o1 o2 b HW HS HN HP HR HE ops HF HRun. destruct (c86_exact cwd out cont ts f o1 o2 b HS HN HP HR HE) as [[H1 _] _]. specialize (H1 HF). apply run_changed in HRun.
  assert (enter f1 (start cwd out) o1 = inl b) as HE1 by (apply (enter_mono f); [now apply changed_dir in HRun|easy]).
  apply (proj2 (proj1 (c86_exact cwd out cont ts f1 o1 o2 b HS HN HP HR HE1))).
  assert (ops = ops_of cont out (flat_map (playlists []) ts)) as EO.
  { unfold ops, ops_of. rewrite flat_map_flat_map. apply flat_map_ext_in. intros t _. apply (walk_list cont out t []). }
  assert (Forall good (flat_map (playlists []) ts)) as HG.
  { apply Forall_forall. intros x I. apply in_flat_map in I as (t & T & I). rewrite Forall_forall in HS. pose proof (strict_playlists t (HS t T) [] (Forall_nil _)) as K. rewrite Forall_forall in K. now apply K. }
  rewrite EO in HRun. now apply (fits_changed cwd out cont o1 o2 b _ f f1).
Qed.
Print Assumptions c86_retry.
(** Runs without faults are runs. *)
Theorem c86_perform : forall cwd f ops f' r, perform cwd f ops = (f', r) -> run cwd f ops f' (match r with None => true | Some _ => false end).
Proof. intros. now apply perform_run. Qed.
Print Assumptions c86_perform.

(** ** Examples and findings *)
Definition root_only : files := fun l => match l with [] => Some EDir | _ => None end.
Definition stick : files := fun l =>
  if loc_eq_dec l [] then Some EDir else if loc_eq_dec l [bytes_of "mnt"] then Some EDir else if loc_eq_dec l [bytes_of "mnt"; bytes_of "export.pdb"] then Some (EFile [1; 2; 3])
  else if loc_eq_dec l [bytes_of "mnt"; bytes_of "b.m3u"] then Some (EFile [7]) else None.
Definition some_tree : list pnode := [PFolder 1 (bytes_of "House") [PPlaylist 2 (bytes_of "a"); PFolder 3 (bytes_of "Deep") [PPlaylist 4 (bytes_of "a")]]; PPlaylist 5 (bytes_of "b")].
Ltac listless := let H := fresh in intro H; cbn in H; repeat (destruct H as [H|H]; [discriminate H|]); exact H.
Example c86_example :
  let ops := flat_map (fun t => walk (fun i => [i]) t (bytes_of "/mnt/../mnt/new/lists")) some_tree in
  let '(f', r) := perform [bytes_of "mnt"] stick ops in
  r = None /\ Forall strict some_tree /\ Forall safe some_tree /\ sound [bytes_of "mnt"] stick /\
  pieces (bytes_of "/mnt/../mnt/new/lists") = [bytes_of "mnt"; dotdot; bytes_of "mnt"] ++ [bytes_of "new"; bytes_of "lists"] /\
  enter stick (start [bytes_of "mnt"] (bytes_of "/mnt/../mnt/new/lists")) [bytes_of "mnt"; dotdot; bytes_of "mnt"] = inl [bytes_of "mnt"] /\
  f' [bytes_of "mnt"; bytes_of "new"; bytes_of "lists"; bytes_of "House"; bytes_of "Deep"; bytes_of "a.m3u"] = Some (EFile [4]) /\
  f' [bytes_of "mnt"; bytes_of "new"; bytes_of "lists"; bytes_of "b.m3u"] = Some (EFile [5]) /\
  f' [bytes_of "mnt"; bytes_of "new"] = Some EDir /\ f' [bytes_of "mnt"; bytes_of "export.pdb"] = Some (EFile [1; 2; 3]) /\ f' [bytes_of "mnt"; bytes_of "b.m3u"] = Some (EFile [7]).
Proof.
  cbn zeta. destruct (perform _ _ _) as [f' r] eqn:E. vm_compute in E. injection E as <- <-. split; [reflexivity|]. split.
  { repeat (apply Forall_cons; [repeat split; try listless; discriminate|]). constructor. }
  split. { repeat (apply Forall_cons; [repeat split; try listless; discriminate|]). constructor. }
  split. { split; [reflexivity|]. split; [reflexivity|]. intros l x e H. unfold stick in H. destruct (loc_eq_dec (l ++ [x]) []) as [Z|_]; [now destruct l|].
    destruct (loc_eq_dec (l ++ [x]) [bytes_of "mnt"]) as [Z|_]; [apply (app_inj_tail l []) in Z as [-> _]; reflexivity|].
    destruct (loc_eq_dec (l ++ [x]) [bytes_of "mnt"; bytes_of "export.pdb"]) as [Z|_]; [apply (app_inj_tail l [bytes_of "mnt"]) in Z as [-> _]; reflexivity|].
    destruct (loc_eq_dec (l ++ [x]) [bytes_of "mnt"; bytes_of "b.m3u"]) as [Z|_]; [apply (app_inj_tail l [bytes_of "mnt"]) in Z as [-> _]; reflexivity|easy]. }
  repeat split; vm_compute; reflexivity.
Qed.
(** A fault after the first file, and the retry. *)
Example c86_fault_example :
  let ops := flat_map (fun t => walk (fun i => [i]) t (bytes_of "new")) some_tree in
  exists f1, run [bytes_of "mnt"] stick ops f1 false /\ f1 [bytes_of "mnt"; bytes_of "new"; bytes_of "House"; bytes_of "a.m3u"] = Some (EFile []) /\
  f1 [bytes_of "mnt"; bytes_of "new"; bytes_of "b.m3u"] = None /\ exists f2, perform [bytes_of "mnt"] f1 ops = (f2, None) /\ f2 [bytes_of "mnt"; bytes_of "new"; bytes_of "b.m3u"] = Some (EFile [5]).
Proof.
  cbn zeta. destruct (create_dir_all stick [bytes_of "mnt"] (bytes_of "new/House")) as [g e] eqn:E. destruct (create_file g [bytes_of "mnt"] (bytes_of "new/House/a.m3u") (firstn 0 [2])) as [f1|] eqn:E2; [|vm_compute in E; injection E as <- <-; vm_compute in E2; discriminate].
  exists f1. split; [|split; [|split]].
  - assert (e = None) as -> by (vm_compute in E; now injection E). apply (run_dirs _ _ _ g); [exact E|]. now apply (run_file_fault _ _ _ _ 0%nat).
  - vm_compute in E. injection E as <- <-. vm_compute in E2. injection E2 as <-. vm_compute. reflexivity.
  - vm_compute in E. injection E as <- <-. vm_compute in E2. injection E2 as <-. vm_compute. reflexivity.
  - vm_compute in E. injection E as <- <-. vm_compute in E2. injection E2 as <-. eexists. split; vm_compute; reflexivity.
Qed.
(** Findings: names for which the export ends with an error although C54 gives each playlist its own file.  A folder called "." in an output
    directory that does not exist ([create_dir_all] takes the parent of "out/." to be the parent of "out"), a folder called like the file
    of a playlist beside it, and a zero byte in a name (after the playlists before it were written). *)
Theorem c86_names_refuted : exists ts1 ts2 ts3 f1 f2 f3, Forall safe (ts1 ++ ts2 ++ ts3) /\
  perform [] root_only (flat_map (fun t => walk (fun i => [i]) t (bytes_of "out")) ts1) = (f1, Some NotFound) /\
  perform [] root_only (flat_map (fun t => walk (fun i => [i]) t (bytes_of "out")) ts2) = (f2, Some Exists) /\
  perform [] root_only (flat_map (fun t => walk (fun i => [i]) t (bytes_of "out")) ts3) = (f3, Some Invalid) /\ f3 [bytes_of "out"; bytes_of "a.m3u"] = Some (EFile [1]).
Proof.
  exists [PFolder 1 (bytes_of ".") [PPlaylist 2 (bytes_of "a")]], [PPlaylist 1 (bytes_of "a"); PFolder 2 (bytes_of "a.m3u") [PPlaylist 3 (bytes_of "b")]], [PPlaylist 1 (bytes_of "a"); PPlaylist 2 [0]].
  do 3 eexists. split. { repeat (apply Forall_cons; [repeat split; try listless; discriminate|]). constructor. }
  split; [vm_compute; reflexivity|]. split; [vm_compute; reflexivity|]. split; [vm_compute; reflexivity|]. vm_compute. reflexivity.
Qed.
Print Assumptions c86_names_refuted.
