(** * Properties C51 to C53: device exports *)
From Coq Require Import NArith ZArith List Bool Lia String Relations.
From Verif Require Import Base BaseFacts Str Schema Rows Page Db RowShape Setting SettingFacts Device DeviceFacts DeviceTree.
Import ListNotations.
Local Close Scope string_scope.
Open Scope N_scope.

(** C51.  Whatever the four files are, loading succeeds, and each option has the value that its own file has for it, and no value if that
    file cannot be opened or parsed. *)
Theorem c51_values : forall fs, exists s, load_settings fs = Ok s /\
  forall t i name e, nth_error (names_of t) i = Some name -> nth_error (items_of t) i = Some (IOpt e) ->
    (forall bs st p, fs (setting_file t) = FsBytes bs -> rd_setting t bs 0 = Ok (st, p) ->
       exists v, nth_error (sd_vals (st_data st)) i = Some (VOpt v) /\ s name = Some v) /\
    ((fs (setting_file t) = FsError \/ exists bs er, fs (setting_file t) = FsBytes bs /\ rd_setting t bs 0 = Err er) -> s name = None).
Proof. exact load_settings_spec. Qed.
Print Assumptions c51_values.
(** Other files do not matter. *)
Theorem c51_isolated : forall fs fs' t s s', fs (setting_file t) = fs' (setting_file t) -> load_settings fs = Ok s -> load_settings fs' = Ok s' ->
  forall i name e, nth_error (names_of t) i = Some name -> nth_error (items_of t) i = Some (IOpt e) -> s name = s' name.
Proof. exact load_settings_local. Qed.
Print Assumptions c51_isolated.
(** Nothing is left out: the fields of [Settings] are the options of the four files. *)
Theorem c51_fields : forall f, In f settings_fields <-> exists t i e, nth_error (names_of t) i = Some f /\ nth_error (items_of t) i = Some (IOpt e).
Proof. exact settings_fields_spec. Qed.
Print Assumptions c51_fields.

Definition ex_my2 : list N := match enc_setting (default_setting TMy2) with Ok bs => bs | _ => [] end.
Definition ex_fs (f : string) : fstate :=
  if String.eqb f "MYSETTING2.DAT" then FsBytes ex_my2 else if String.eqb f "MYSETTING.DAT" then FsBytes [1; 2; 3] else FsError.
Example c51_example : exists s, load_settings ex_fs = Ok s /\ s "vinyl_speed_adjust"%string = Some "Touch"%string /\ s "quantize"%string = None /\
  s "waveform_color"%string = None.
Proof. eexists. split; [vm_compute; reflexivity|]. repeat split; vm_compute; reflexivity. Qed.

(** C52.  A row is connected if its parent can be reached from the root (id 0) by a chain of folders.  If the names of these rows decode,
    the entries of the tree are these rows, each once; the entries with a given parent are its rows in row order. *)
Theorem c52_complete : forall ns, NoDup (map nd_id ns) /\ ~ In 0 (map nd_id ns) -> (forall n, connected ns n -> exists s, decodes n s) ->
  exists ts, (forall depth, (List.length ns < depth)%nat -> playlist_tree depth ns = Some (Done ts)) /\
    let es := flat_map (entries 0) ts in
    NoDup (map id_of es) /\
    (forall e, In e es <-> exists n, connected ns n /\ shows n e) /\
    (forall p, reaches ns 0 p -> Forall2 shows (filter (fun n => nd_parent n =? p) ns) (filter (fun e => parent_of e =? p) es)).
Proof. exact complete. Qed.
Print Assumptions c52_complete.
(** The rows that count as folders in this are those whose field [node_is_folder] is not zero. *)
Theorem c52_folders : forall n, nd_folder n = true <-> nd_isf n <> 0.
Proof. intro n. unfold nd_folder. rewrite N.ltb_lt. lia. Qed.
Print Assumptions c52_folders.
(** Without distinct ids, and whether names decode or not: if there is no cycle the tree is finished within a depth of the number of rows,
    it shows the rows below each folder in order, or the error is that the name of some connected row does not decode. *)
Theorem c52_general : forall ns, ~ reachable_cycle ns -> exists r, (forall depth, (List.length ns < depth)%nat -> playlist_tree depth ns = Some r) /\
  match r with
  | Done ts => tree_of ns 0 ts /\ forall n, connected ns n -> exists s, decodes n s
  | Fail e => e = PEncoding /\ exists n, connected ns n /\ ~ exists s, decodes n s
  | Crash => False
  end.
Proof. exact ends. Qed.
Print Assumptions c52_general.
(** The same from the bytes of a database: of any database that was opened and then only read, [db_shaped] holds. *)
Theorem c52_database : forall b d rows, db_shaped d -> snd (iter_rows b KPlaylistTreeNode d) = Some (DOk rows) ->
  exists ns, Forall2 (fun r n => node_of_row r = Some n) rows ns /\ forall depth, get_playlists b depth d = playlist_tree depth ns.
Proof. exact get_playlists_rows. Qed.
Print Assumptions c52_database.
Theorem c52_opened : forall io k d, db_open io k = DOk d -> db_shaped d.
Proof. exact open_shaped. Qed.
Print Assumptions c52_opened.
Theorem c52_reading : forall b k d, db_shaped d -> db_shaped (fst (iter_rows b k d)).
Proof. intros b k d H. exact (proj1 (iter_rows_shaped b k d H)). Qed.
Print Assumptions c52_reading.
Theorem c52_failed : forall b d, (forall rows, snd (iter_rows b KPlaylistTreeNode d) <> Some (DOk rows)) -> exists r,
  snd (iter_rows b KPlaylistTreeNode d) = Some r /\ forall depth, get_playlists b depth d = Some (match r with DErr e => Fail (PDb e) | _ => Crash end).
Proof. exact get_playlists_failed. Qed.
Print Assumptions c52_failed.

(** A folder 5 with a playlist and an empty folder, a playlist beside it, and a row whose parent does not exist. *)
Definition ex_nodes : list node :=
  [mk_node 5 7 0 (DSShort [65]); mk_node 0 5 1 (DSShort [66]); mk_node 99 8 0 (DSShort [67]); mk_node 5 3 1 (DSShort [68]); mk_node 0 2 0 (DSShort [69])].
Example c52_example : playlist_tree 6 ex_nodes = Some (Done [PFolder 5 [66] [PPlaylist 7 [65]; PFolder 3 [68] []]; PPlaylist 2 [69]]) /\
  (NoDup (map nd_id ex_nodes) /\ ~ In 0 (map nd_id ex_nodes)) /\ (forall n, connected ex_nodes n -> exists s, decodes n s).
Proof.
  split; [vm_compute; reflexivity|]. split; [split; [repeat constructor; cbn; lia|cbn; lia]|].
  intros n [I _]. repeat (destruct I as [<-|I]; [eexists; reflexivity|]). destruct I.
Qed.
(** The same from a database. *)
Definition ex_tree_rows : list (N * row) :=
  [(0, RRow KPlaylistTreeNode [VInt 0; VInt 0; VInt 0; VInt 5; VInt 1; VStr (DSShort [66])] None);
   (24, RRow KPlaylistTreeNode [VInt 5; VInt 0; VInt 0; VInt 7; VInt 0; VStr (DSShort [65])] None)].
Definition ex_tree_db : database :=
  let h := mk_dbhdr 200 1 2 0 7 [mk_table (PT KPlaylistTreeNode) 4 1 1] in
  mk_db [] DbPlain h [Some (mk_page (mk_phdr 1 (PT KPlaylistTreeNode) 3 1 0 (mk_counts 2 2) 0x24 12 48)
    (PData (mk_dcontent [VInt 1; VInt 0; VInt 0; VInt 0] [mk_rgroup (repeat 65535 14 ++ [24; 0]) 3 2] ex_tree_rows)))].
Definition ex_tree_io : list N := match flush Debug ex_tree_db with DOk d => db_io d | _ => [] end.
Example c52_example_database : match db_open ex_tree_io DbPlain with
  | DOk d => get_playlists Debug 3 d = Some (Done [PFolder 5 [66] [PPlaylist 7 [65]]]) /\ snd (iter_rows Debug KPlaylistTreeNode d) = Some (DOk (map snd ex_tree_rows))
  | _ => False end.
Proof. vm_compute. easy. Qed.

(** C53.  If the names decode, the recursion ends at no depth iff a folder that can be reached from the root is its own ancestor. *)
Theorem c53_forever : forall ns, (forall n, connected ns n -> exists s, decodes n s) ->
  (forall depth, playlist_tree depth ns = None) <-> exists x, reaches ns 0 x /\ strictly ns x x.
Proof. exact never_ends. Qed.
Print Assumptions c53_forever.
(** The smallest case: one folder with id 0, which is the root itself. *)
Example c53_example : let ns := [mk_node 0 0 1 (DSShort [65])] in
  (forall n, connected ns n -> exists s, decodes n s) /\ reaches ns 0 0 /\ strictly ns 0 0.
Proof.
  cbv zeta. split; [intros n [[<-|[]] _]; eexists; reflexivity|]. split; [constructor|]. constructor 1. eexists. split; [now left|easy].
Qed.
(** Two folders that contain each other are not noticed if the root does not lead to them. *)
Example c53_example_unreachable : let ns := [mk_node 1 2 1 (DSShort [65]); mk_node 2 1 1 (DSShort [66]); mk_node 0 3 0 (DSShort [67])] in
  strictly ns 1 1 /\ playlist_tree 4 ns = Some (Done [PPlaylist 3 [67]]).
Proof.
  cbv zeta. split; [|vm_compute; reflexivity]. econstructor 2; [exists (mk_node 1 2 1 (DSShort [65])); cbn; tauto|].
  constructor 1. exists (mk_node 2 1 1 (DSShort [66])). cbn. tauto.
Qed.
(** Ids that are not distinct, without a cycle: the same folder twice. *)
Example c53_example_shared : let ns := [mk_node 0 5 1 (DSShort [65]); mk_node 0 5 1 (DSShort [66]); mk_node 5 3 0 (DSShort [67])] in
  playlist_tree 4 ns = Some (Done [PFolder 5 [65] [PPlaylist 3 [67]]; PFolder 5 [66] [PPlaylist 3 [67]]]).
Proof. vm_compute. reflexivity. Qed.
