(** * Property C125: what the commands say about databases made from scratch *)
From Coq Require Import NArith ZArith List Bool Lia Sorted Relations String.
From Coq Require Import ZifyBool ZifyNat ZifyN.
From Verif Require Import Base BaseFacts Segs Utf Str StrFacts StrGood Schema SchemaFacts Oa OaFacts OaSpec Rows RowFacts RowSpec Page BitFacts PageFacts PageRw PageSpec Alloc AllocFacts AllocSpec
  Db DbFacts DbFlush DbFresh RowShape Reread Progress Insert Session Dump DumpFacts Setting Device DeviceFacts DeviceTree Cli CliFacts CliList Listing Fs FsFacts FsExport Main Compose Graft ComposeList Append
  Relink PropListing PropCompose PropComposeList PropScratch.
Import ListNotations.
Local Close Scope string_scope.
Open Scope N_scope.

(** The rows that a program (see C124) has planned for the table of kind [k]. *)
Definition planned_rows (h : dbhdr) (plans : list plan) (k : rkind) (rows : list row) : Prop :=
  exists i t q, find_table (PT k) h = Some (i, t) /\ PropScratch.chain plans (tb_last t) (tb_first t) q /\ Forall (fun p => pl_type p = PT k) q /\ rows = flat_map planned q.
(** A program as in C124 whose pages and rows are in order. *)
Definition made (b : build) (h : dbhdr) (plans : list plan) (io : list N) : Prop :=
  dbhdr_ok DbPlain h /\ dh_next h = 1 /\ 28 + 16 * len (dh_tables h) <= dh_page_size h /\ 40 <= dh_page_size h /\ dh_page_size h <= 4096 /\ 1 + len plans < 2 ^ 32 /\
  Forall (plan_ok b DbPlain (dh_page_size h)) plans /\ makes b DbPlain h plans io.
Lemma made_db b h plans io : made b h plans io -> exists d A, db_open io DbPlain = DOk d /\ stores b d (fun _ => GGrow) A /\ forall k rows, planned_rows h plans k rows -> on_shelves A (db_header d) k rows.
Proof.
  intros (H1 & H2 & H3 & H4 & H5 & H6 & H7 & H8). destruct (made_stores b DbPlain h plans io H1 H2 H3 H4 H5 H6 H7 H8) as (d & O1 & O2 & O3). eexists d, _. split; [exact O1|]. split; [exact O3|].
  intros k rows (i & t & q & HT & HC & HK & ->). destruct (chain_path b DbPlain (dh_page_size h) plans _ _ q H7 HC) as (is & I1 & I2). exists is. split; [exists i, t; split; [rewrite O2; exact HT|exact I1]|]. split; [now rewrite I2|].
  exact (chain_variant b DbPlain (dh_page_size h) k plans (tb_last t) (tb_first t) q H7 HC HK).
Qed.

(** The listing of the file has the lines for the planned rows: for each node that can be reached from the root, in the order of C62, a line for the node and one for each of its entries. *)
Theorem c125_listing : forall b h plans io Rn Ra Rt Re, made b h plans io ->
  planned_rows h plans KPlaylistTreeNode Rn -> planned_rows h plans KArtist Ra -> planned_rows h plans KTrack Rt -> planned_rows h plans KPlaylistEntry Re ->
  exists ns arts trs es, Forall2 (fun r x => node_of_row r = Some x) Rn ns /\ Forall2 (fun r x => artist_of_row r = Some x) Ra arts /\
    Forall2 (fun r x => listed_track_of_row r = Some x) Rt trs /\ Forall2 (fun r x => pentry_of_row r = Some x) Re es /\
    (distinct ns -> exists v f, ordered ns v /\ (forall y, node_lines es arts trs y (f y)) /\ lists b io ns v f).
Proof.
  intros b h plans io Rn Ra Rt Re HM Pn Pa Pt Pe. destruct (made_db b h plans io HM) as (d & A & HO & HS & HR). apply HR in Pn, Pa, Pt, Pe.
  destruct (on_values node_of_row b io DbPlain d _ A _ _ node_of_shaped same_node HO HS Pn) as (rn & ns & Tn & Fn & Gn). destruct (on_values artist_of_row b io DbPlain d _ A _ _ artist_of_shaped same_artist HO HS Pa) as (ra & arts & Ta & Fa & Ga).
  destruct (on_values listed_track_of_row b io DbPlain d _ A _ _ listed_track_of_shaped same_listed_track HO HS Pt) as (rt & trs & Tt & Ft & Gt). destruct (on_values pentry_of_row b io DbPlain d _ A _ _ pentry_of_shaped same_pentry HO HS Pe) as (re & es & Te & Fe & Ge).
  exists ns, arts, trs, es. do 4 (split; [assumption|]). intro D. destruct (ordered_visit ns D) as (v & V & O). exists v, (items es arts trs). split; [exact O|]. split; [apply items_lines|]. apply lists_rows; [|exact D|exact V].
  exists d, rn, ra, rt, re. split; [exact (stores_bytes b io DbPlain d _ A HO HS)|]. repeat (split; [assumption|]). assumption.
Qed.
Print Assumptions c125_listing.
(** The export of the file writes what the planned rows say (see C88): it succeeds exactly if the paths of all tracks and the names of the tree can be decoded, and then writes one file for
    every playlist of the tree. *)
Theorem c125_export : forall b h plans io Rn Re Rt, made b h plans io -> planned_rows h plans KPlaylistTreeNode Rn -> planned_rows h plans KPlaylistEntry Re -> planned_rows h plans KTrack Rt ->
  exists d ns es raw, db_open io DbPlain = DOk d /\
    Forall2 (fun r x => node_of_row r = Some x) Rn ns /\ Forall2 (fun r x => pentry_of_row r = Some x) Re es /\ Forall2 (fun r x => track_of_row r = Some x) Rt raw /\
    forall depth out canon ops, export b depth d out canon = Some (Done ops) <-> exists tr ts c,
      Forall2 (fun x y => fst x = fst y /\ dstr_into_string (snd x) = inl (snd y)) raw tr /\ playlist_tree depth ns = Some (Done ts) /\
      (forall id, playlist_text canon es tr id (c id)) /\ ops = flat_map (fun t => walk c t out) ts.
Proof.
  intros b h plans io Rn Re Rt HM Pn Pe Pt. destruct (made_db b h plans io HM) as (d & A & HO & HS & HR). apply HR in Pn, Pe, Pt.
  apply (c88_rows b io d (fun _ => GGrow) A [] io Rn Re Rt HO HS); [constructor|constructor|exact Pn|exact Pe|exact Pt].
Qed.
Print Assumptions c125_export.

(** ** Example: nodes on two pages, and one page for each of the other tables *)
Definition c125_hdr : dbhdr := mk_dbhdr 600 4 1 0 7 [mk_table (PT KTrack) 9 3 3; mk_table (PT KArtist) 9 4 4; mk_table (PT KPlaylistTreeNode) 9 1 5; mk_table (PT KPlaylistEntry) 9 2 2].
Definition c125_plans : list plan :=
  [mk_plan (PT KPlaylistTreeNode) 5 (map sized [c76_node 2 5 0 "Deep"; c76_node 0 2 1 "Sets"]); mk_plan (PT KPlaylistEntry) 9 (map sized [entry_row 1 41 5; entry_row 7 40 5; entry_row 1 42 3]);
   mk_plan (PT KTrack) 9 (map sized [c76_track 40 7 "One" "/a.mp3"; c76_track 41 8 "Two" "/b.mp3"]); mk_plan (PT KArtist) 9 (map sized [c76_artist 7 "Ann"]);
   mk_plan (PT KPlaylistTreeNode) 9 (map sized [c76_node 0 3 0 "Mix"])].
Definition c125_pages : list page := Eval vm_compute in
  (fix go i l := match l with [] => [] | p :: r => match Alloc.run Debug (pl_ops p) (blank 600 i p) with Ok q => q :: go (i + 1) r | _ => [] end end) 1 c125_plans.
Definition c125_io : list N := Eval vm_compute in
  match wr_all (map (page_write Debug 600) c125_pages) (dbhdr_enc c125_hdr, 600) with
  | Ok (io1, _) => match db_open io1 DbPlain with DOk d => match flush Debug (with_header d (with_next 6 (db_header d))) with DOk d2 => db_io d2 | _ => [] end | _ => [] end
  | _ => [] end.
Lemma c125_plans_ok : Forall (plan_ok Debug DbPlain 600) c125_plans.
Proof.
  unfold c125_plans. repeat (apply Forall_cons || apply Forall_nil); (split; [cbn; auto 20|]; split; [reflexivity|]; split; [|vm_compute; discriminate]); cbn [pl_ops pl_type map]; repeat (apply Forall_cons || apply Forall_nil).
  all: (eapply c88_fine; [|easy|easy|reflexivity|vm_compute; reflexivity|vm_compute; discriminate]).
  all: split; [repeat constructor; cbn; try lia|cbn; try exact I].
  all: try easy.
  all: split; [reflexivity|]; split; [|easy].
  all: repeat (apply Forall_cons || apply Forall_nil); (split; [|split; [intros v E; discriminate E|exact I]]); (split; [vm_compute; discriminate|repeat constructor; lia]).
Qed.
Example c125_example_hyp : made Debug c125_hdr c125_plans c125_io /\ planned_rows c125_hdr c125_plans KPlaylistTreeNode [c76_node 2 5 0 "Deep"; c76_node 0 2 1 "Sets"; c76_node 0 3 0 "Mix"] /\
  planned_rows c125_hdr c125_plans KArtist [c76_artist 7 "Ann"] /\ planned_rows c125_hdr c125_plans KTrack [c76_track 40 7 "One" "/a.mp3"; c76_track 41 8 "Two" "/b.mp3"] /\
  planned_rows c125_hdr c125_plans KPlaylistEntry [entry_row 1 41 5; entry_row 7 40 5; entry_row 1 42 3].
Proof.
  split.
  - unfold made. split; [unfold dbhdr_ok; do 6 (split; [reflexivity|]); repeat (apply Forall_cons || apply Forall_nil); (split; [cbn; auto 20|repeat split])|]. split; [reflexivity|]. split; [vm_compute; discriminate|]. split; [vm_compute; discriminate|].
    split; [vm_compute; discriminate|]. split; [reflexivity|]. split; [exact c125_plans_ok|]. exists c125_pages. split; [repeat (apply filled_cons; [vm_compute; reflexivity|]); apply filled_nil|].
    eexists _, _, _, _, _. split; [vm_compute; reflexivity|]. split; [vm_compute; reflexivity|]. split; [vm_compute; reflexivity|]. split; [vm_compute; reflexivity|]. vm_compute. reflexivity.
  - split; [|split; [|split]]; eexists _, _, _; (split; [reflexivity|]); (split; [|split; [|]]).
    1: { eapply chain_step; [discriminate|easy|reflexivity|easy|]. apply chain_last; [easy|reflexivity]. }
    1: repeat constructor. 1: reflexivity.
    all: try (apply chain_last; [easy|reflexivity]). all: try reflexivity. all: repeat constructor.
Qed.
Example c125_example : list_playlists Debug 4 c125_io = Some (Done ([LNode 0 true (DSShort (bytes_of "Sets")); LNode 1 false (DSShort (bytes_of "Deep")); LTrack 1 1 (TNoArtist 8 (DSShort (bytes_of "Two")));
  LTrack 1 7 (TFound (DSShort (bytes_of "Ann")) (DSShort (bytes_of "One"))); LNode 0 false (DSShort (bytes_of "Mix")); LTrack 0 1 (TMissing 42)], false)).
Proof. vm_compute. reflexivity. Qed.
