(** * Property theorems C76, C77: listing and exporting the playlists of a file *)
From Coq Require Import NArith ZArith List Bool Lia Sorted Relations String.
From Coq Require Import ZifyBool ZifyNat ZifyN.
From Verif Require Import Base BaseFacts Segs Utf Str Schema Oa Rows Page PageRw Db DbFacts DbFlush DbFresh RowShape Dump DumpFacts Setting Device DeviceFacts DeviceTree
  Cli CliFacts CliList Listing.
Import ListNotations.
Local Close Scope string_scope.
Open Scope N_scope.

(** C76.  A file whose header cannot be read: the error is returned. *)
Theorem c76_header : forall b depth io e, rd_dbhdr DbPlain io 0 = Err e -> list_playlists b depth io = Some (Fail (PDb (DParse e))).
Proof. intros b depth io e H. unfold list_playlists, db_open. now rewrite H. Qed.
Print Assumptions c76_header.
(** [table_in b k h io kd x]: [x] are the rows of the table for rows of kind [kd] as they are in the file, or why they cannot be read.  There is
    always exactly one such [x]. *)
Theorem c76_tables : forall b k io d kd, bytes_ok io -> db_open io k = DOk d ->
  exists x, table_in b k (db_header d) io kd x /\ forall y, table_in b k (db_header d) io kd y -> y = x.
Proof.
  intros b k io d kd HB HO. destruct (iter_rows_spec b io k kd d HB (open_fresh b io k d HO)) as (x & _ & H). exists x. split; [easy|].
  intros y HY. exact (table_in_fun _ _ _ _ _ _ _ H HY).
Qed.
Print Assumptions c76_tables.
(** If one of the four tables cannot be read, the error for the first one is returned, and nothing is printed. *)
Theorem c76_error : forall b io d l1 kd l2, bytes_ok io -> db_open io DbPlain = DOk d ->
  [KPlaylistTreeNode; KArtist; KTrack; KPlaylistEntry] = l1 ++ kd :: l2 -> (forall kd', In kd' l1 -> exists rows, table_in b DbPlain (db_header d) io kd' (DOk rows)) ->
  (forall e, table_in b DbPlain (db_header d) io kd (DErr e) -> forall depth, list_playlists b depth io = Some (Fail (PDb e))) /\
  (table_in b DbPlain (db_header d) io kd DPanic -> forall depth, list_playlists b depth io = Some Crash).
Proof. intros b io d l1 kd l2 HB HO HL H1. destruct (list_rows b io d HB HO) as [H _]. exact (H l1 kd l2 HL H1). Qed.
Print Assumptions c76_error.
(** Otherwise the lines are those for the rows of these tables: for each node that can be reached from the root (in the order of C62, with its
    level), a line for the node and one for each of its entries. *)
Theorem c76_lines : forall b io d rn ra rt re, bytes_ok io -> db_open io DbPlain = DOk d ->
  table_in b DbPlain (db_header d) io KPlaylistTreeNode (DOk rn) -> table_in b DbPlain (db_header d) io KArtist (DOk ra) ->
  table_in b DbPlain (db_header d) io KTrack (DOk rt) -> table_in b DbPlain (db_header d) io KPlaylistEntry (DOk re) ->
  exists ns arts trs es, Forall2 (fun r x => node_of_row r = Some x) rn ns /\ Forall2 (fun r x => artist_of_row r = Some x) ra arts /\
    Forall2 (fun r x => listed_track_of_row r = Some x) rt trs /\ Forall2 (fun r x => pentry_of_row r = Some x) re es /\
    (NoDup (map nd_id ns) /\ ~ In 0 (map nd_id ns) -> exists (v : list (nat * node)) (ls : list (list item)),
       (forall depth, (List.length ns < depth)%nat -> list_playlists b depth io = Some (Done (shown (List.concat ls)))) /\
       Forall2 (node_lines es arts trs) v ls /\
       NoDup (map snd v) /\
       (forall n, In n (map snd v) <-> In n ns /\ clos_refl_trans_1n N (under ns) 0 (nd_parent n)) /\
       (forall k n, In (k, n) v -> path_len ns k 0 (nd_parent n)) /\
       (forall k n l1 l2, v = l1 ++ (k, n) :: l2 -> (k = 0%nat /\ nd_parent n = 0) \/
          exists p, last_of (fun y => (fst y < k)%nat) l1 p /\ S (fst p) = k /\ nd_id (snd p) = nd_parent n) /\
       (forall p, clos_refl_trans_1n N (under ns) 0 p -> filter (fun n => nd_parent n =? p) (map snd v) = filter (fun n => nd_parent n =? p) ns)).
Proof.
  intros b io d rn ra rt re HB HO Hn Ha Ht He. destruct (list_rows b io d HB HO) as [_ H]. destruct (H rn ra rt re Hn Ha Ht He) as (ns & arts & trs & es & F1 & F2 & F3 & F4 & E).
  exists ns, arts, trs, es. repeat (split; [easy|]). intro HD.
  destruct (list_complete (entries_map es) (insert_all arts) (insert_all trs) ns HD) as (v & V1 & V2 & V3 & V4 & V5 & V6).
  exists v, (map (row_items (entries_map es) (insert_all arts) (insert_all trs)) v). split.
  - intros depth L. now rewrite E, (V1 depth L), flat_map_concat_map.
  - split; [clear; induction v as [|x v IH]; cbn [map]; constructor; [apply row_items_lines|exact IH]|]. repeat (split; [easy|]). easy.
Qed.
Print Assumptions c76_lines.
(** The list of lines of each node is unique. *)
Theorem c76_unique : forall es arts trs x l l', node_lines es arts trs x l -> node_lines es arts trs x l' -> l = l'.
Proof.
  assert (forall (A : Type) (P : A -> Prop) l x y, last_of P l x -> last_of P l y -> x = y) as LU.
  { intros A P l. induction l as [|z l IH] using rev_ind; intros x y H H'; [now apply last_of_nil in H|]. rewrite last_of_snoc in H, H'.
    destruct H as [[H1 ->]|[H1 H2]], H' as [[H1' ->]|[H1' H2']]; try easy. now apply IH. }
  assert (forall ps qs : list (N * N), StronglySorted (fun y z => fst y < fst z) ps -> StronglySorted (fun y z => fst y < fst z) qs -> (forall z, In z ps <-> In z qs) -> ps = qs) as SU.
  { induction ps as [|p ps IH]; intros [|q qs] S1 S2 HI; [easy|destruct (proj2 (HI q)); now left|destruct (proj1 (HI p)); now left|].
    inversion S1 as [|? ? T1 U1]; subst. inversion S2 as [|? ? T2 U2]; subst. rewrite Forall_forall in U1, U2.
    assert (p = q) as ->.
    { destruct (proj1 (HI p)) as [E|I]; [now left|easy|]. destruct (proj2 (HI q)) as [E|I']; [now left|easy|]. specialize (U1 _ I'). specialize (U2 _ I). lia. }
    f_equal. apply IH; try easy. intro z. split; intro I.
    - destruct (proj1 (HI z)) as [E|I']; [now right| |easy]. subst. specialize (U1 _ I). lia.
    - destruct (proj2 (HI z)) as [E|I']; [now right| |easy]. subst. specialize (U2 _ I). lia. }
  intros es arts trs x l l' (ps & ls & -> & S & HP & F) (ps' & ls' & -> & S' & HP' & F'). f_equal.
  assert (ps' = ps) as -> by (apply SU; try easy; intros [i t]; now rewrite HP, HP').
  clear -F F' LU. revert ls' F'. induction F as [|y it ps ls H F IH]; intros ls' F'; inversion F' as [|? it' ? ls'' H' F'']; subst; [easy|]. f_equal; [|now apply IH].
  assert (forall (V : Type) k (v : V) (m : list (N * V)), last_of (fun x => fst x = k) m (k, v) -> In k (map fst m)) as LI.
  { intros V k v m (m1 & m2 & -> & _). rewrite map_app. apply in_or_app. right. now left. }
  destruct H as [H|a title H1 H2|a title name H1 H2]; destruct H' as [H'|a' title' H1' H2'|a' title' name' H1' H2'];
    try (exfalso; match goal with H : ~ In (snd y) _, H1 : last_of _ trs _ |- _ => apply LI in H1; now apply H end); try easy;
    pose proof (LU _ _ _ _ _ H1 H1') as [= <- <-]; try easy.
  - exfalso. apply LI in H2'. now apply H2.
  - exfalso. apply LI in H2. now apply H2'.
  - pose proof (LU _ _ _ _ _ H2 H2') as [= <-]. easy.
Qed.
Print Assumptions c76_unique.

(** C77.  An export of a file: files are written only if all three tables are readable and all names of nodes that can be reached and all paths of tracks decode;
    the operations are those of C55 and C54 for the rows of these tables.  Otherwise the error is the first one: that of the first table that is not readable, or
    that of a name or path; a path comes before the error of a later page, if its row is delivered before ([table_gives], [paths_decode]). *)
Theorem c77_export : forall b io k d out canon depth, bytes_ok io -> db_open io k = DOk d ->
  match export b depth d out canon with
  | Some (Done ops) => exists rn re rt ns es raw tr ts c, table_in b k (db_header d) io KPlaylistTreeNode (DOk rn) /\
      table_in b k (db_header d) io KPlaylistEntry (DOk re) /\ table_in b k (db_header d) io KTrack (DOk rt) /\
      Forall2 (fun r x => node_of_row r = Some x) rn ns /\ Forall2 (fun r x => pentry_of_row r = Some x) re es /\ Forall2 (fun r x => track_of_row r = Some x) rt raw /\
      Forall2 (fun x y => fst x = fst y /\ dstr_into_string (snd x) = inl (snd y)) raw tr /\ playlist_tree depth ns = Some (Done ts) /\
      (forall id, playlist_text canon es tr id (c id)) /\ ops = flat_map (fun t => walk c t out) ts
  | Some (Fail (PDb e)) => first_bad (table_in b k (db_header d) io) (DErr e) /\ paths_decode b k (db_header d) io
  | Some (Fail PEncoding) =>
      (exists rn ns r n, table_in b k (db_header d) io KPlaylistTreeNode (DOk rn) /\ Forall2 (fun r x => node_of_row r = Some x) rn ns /\ In r rn /\ node_of_row r = Some n /\
         reaches ns 0 (nd_parent n) /\ ~ exists s, decodes n s) \/
      (exists rn re rs y r i s, table_in b k (db_header d) io KPlaylistTreeNode (DOk rn) /\ table_in b k (db_header d) io KPlaylistEntry (DOk re) /\
         table_gives b k (db_header d) io KTrack rs y /\ In r rs /\ track_of_row r = Some (i, s) /\ ~ exists p, dstr_into_string s = inl p)
  | Some Crash => first_bad (table_in b k (db_header d) io) DPanic /\ paths_decode b k (db_header d) io
  | None => exists rn ns, table_in b k (db_header d) io KPlaylistTreeNode (DOk rn) /\ Forall2 (fun r x => node_of_row r = Some x) rn ns /\ playlist_tree depth ns = None
  end.
Proof.
  intros b io k d out canon depth HB HO. pose proof (export_file b io k d out canon HB HO depth) as H. destruct (export b depth d out canon) as [[ops|[e|]|]|]; try exact H.
  destruct H as (rn & re & rt & ns & es & raw & tr & ts & H1 & H2 & H3 & H4 & H5 & H6 & H7 & H8 & H9). exists rn, re, rt, ns, es, raw, tr, ts, (content canon (entries_map es) (tracks_map tr)).
  do 8 (split; [assumption|]). split; [|exact H9]. intro id. apply content_text.
Qed.
Print Assumptions c77_export.

(** ** Example: four pages with the rows of the four tables *)
Definition c76_data (i : N) (kd : rkind) (rows : list (N * row)) (groups : list rgroup) : page :=
  mk_page (mk_phdr i (PT kd) 9 1 0 (mk_counts (len rows) (len rows)) 0x24 12 36) (PData (mk_dcontent [VInt 1; VInt 0; VInt 0; VInt 0] groups rows)).
Definition c76_group (offs : list N) (flags : N) : rgroup := mk_rgroup (repeat 65535 (16 - List.length offs) ++ rev offs) flags 0.
Definition c76_node (parent id folder : N) (name : string) : row := RRow KPlaylistTreeNode [VInt parent; VInt 0; VInt 0; VInt id; VInt folder; VStr (DSShort (bytes_of name))] None.
Definition c76_artist (id : N) (name : string) : row := RRow KArtist [VInt 0x60; VInt 0; VInt id] (Some (mk_oarr None [DSShort (bytes_of name)])).
Definition c76_track (id artist : N) (title path : string) : row :=
  RRow KTrack ([VInt 0x24; VInt 0] ++ map (fun _ => VInt 0) (seq 0 17) ++ [VInt artist; VInt id] ++ repeat (VInt 0) 6 ++ [VNamed 0; VInt 0; VNamed 1])
    (Some (mk_oarr None (repeat (DSShort []) 17 ++ [DSShort (bytes_of title); DSShort []; DSShort []; DSShort (bytes_of path)]))).
Definition c76_entry (i t p : N) : row := RRow KPlaylistEntry [VInt i; VInt t; VInt p] None.
Definition c76_nodes : list (N * row) := [(0, c76_node 2 5 0 "Deep"); (32, c76_node 0 2 1 "Sets"); (64, c76_node 0 3 0 "Mix")].
Definition c76_artists : list (N * row) := [(0, c76_artist 7 "Ann")].
Definition c76_tracks : list (N * row) := [(0, c76_track 40 7 "One" "/a.mp3"); (200, c76_track 41 8 "Two" "/b.mp3")].
Definition c76_entries : list (N * row) := [(0, c76_entry 2 40 5); (12, c76_entry 1 41 5); (24, c76_entry 1 42 3)].
Definition c76_header_ex : dbhdr := mk_dbhdr 600 4 5 0 7 [mk_table (PT KTrack) 9 3 3; mk_table (PT KArtist) 9 2 2; mk_table (PT KPlaylistTreeNode) 9 1 1; mk_table (PT KPlaylistEntry) 9 4 4].
Definition c76_io : list N := Eval vm_compute in match flush Debug (mk_db (repeat 0 3000) DbPlain c76_header_ex
  [Some (c76_data 1 KPlaylistTreeNode c76_nodes [c76_group [0; 32; 64] 7]); Some (c76_data 2 KArtist c76_artists [c76_group [0] 1]);
   Some (c76_data 3 KTrack c76_tracks [c76_group [0; 200] 3]); Some (c76_data 4 KPlaylistEntry c76_entries [c76_group [0; 12; 24] 7])]) with DOk d => db_io d | _ => [] end.
Definition c76_open : database := mk_db c76_io DbPlain c76_header_ex [None; None; None; None].
Lemma c76_opens : db_open c76_io DbPlain = DOk c76_open.
Proof. vm_compute. reflexivity. Qed.
Lemma c76_bytes : bytes_ok c76_io.
Proof. apply Forall_forall. intros x Hx. assert (forallb (fun x => x <? 256) c76_io = true) as E by (vm_compute; reflexivity). rewrite forallb_forall in E. specialize (E x Hx). cbv beta in E. lia. Qed.
Example c76_example : 
  (exists rn ra rt re, table_in Debug DbPlain c76_header_ex c76_io KPlaylistTreeNode (DOk rn) /\ table_in Debug DbPlain c76_header_ex c76_io KArtist (DOk ra) /\
     table_in Debug DbPlain c76_header_ex c76_io KTrack (DOk rt) /\ table_in Debug DbPlain c76_header_ex c76_io KPlaylistEntry (DOk re) /\
     rn = map snd c76_nodes /\ re = map snd c76_entries /\ map artist_of_row ra = map (fun x => artist_of_row (snd x)) c76_artists /\
     map listed_track_of_row rt = map (fun x => listed_track_of_row (snd x)) c76_tracks) /\
  list_playlists Debug 4 c76_io = Some (Done
    ([LNode 0 true (DSShort (bytes_of "Sets")); LNode 1 false (DSShort (bytes_of "Deep"));
      LTrack 1 1 (TNoArtist 8 (DSShort (bytes_of "Two"))); LTrack 1 2 (TFound (DSShort (bytes_of "Ann")) (DSShort (bytes_of "One")));
      LNode 0 false (DSShort (bytes_of "Mix")); LTrack 0 1 (TMissing 42)], false)).
Proof.
  split; [|vm_compute; reflexivity].
  assert (forall kd, exists x, snd (iter_rows Debug kd c76_open) = Some x /\ table_in Debug DbPlain c76_header_ex c76_io kd x) as H.
  { intro kd. exact (iter_rows_spec Debug c76_io DbPlain kd c76_open c76_bytes (open_fresh _ _ _ _ c76_opens)). }
  destruct (H KPlaylistTreeNode) as (x1 & E1 & T1), (H KArtist) as (x2 & E2 & T2), (H KTrack) as (x3 & E3 & T3), (H KPlaylistEntry) as (x4 & E4 & T4). clear H.
  vm_compute in E1. injection E1 as <-. vm_compute in E2. injection E2 as <-. vm_compute in E3. injection E3 as <-. vm_compute in E4. injection E4 as <-.
  eexists _, _, _, _. split; [exact T1|]. split; [exact T2|]. split; [exact T3|]. split; [exact T4|]. vm_compute. now repeat split.
Qed.
(** Without the page of the artists, the error for the artists is returned, although the tracks and entries can be read. *)
Definition c76_broken : list N := firstn 1200 c76_io ++ repeat 255 600 ++ skipn 1800 c76_io.
Example c76_error_example : (exists e, list_playlists Debug 4 c76_broken = Some (Fail (PDb e)) /\
  match db_open c76_broken DbPlain with DOk d => snd (iter_rows Debug KArtist d) = Some (DErr e) | _ => False end).
Proof. eexists. vm_compute. split; reflexivity. Qed.
Example c77_example : export Debug 4 c76_open (bytes_of "/out") (bytes_of "/usb") = Some (Done
  [MkDirs (bytes_of "/out/Sets"); WriteFile (bytes_of "/out/Sets/Deep.m3u") (bytes_of "/usb/b.mp3" ++ [10] ++ bytes_of "/usb/a.mp3" ++ [10]);
   MkDirs (bytes_of "/out"); WriteFile (bytes_of "/out/Mix.m3u") []]).
Proof. vm_compute. reflexivity. Qed.
