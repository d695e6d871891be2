(** * Property C119: damage to other pages does not change what a table says *)
From Coq Require Import NArith ZArith List Bool Lia Sorted Relations String.
From Coq Require Import ZifyBool ZifyNat ZifyN.
From Verif Require Import Base BaseFacts Segs Utf Str StrFacts Schema Oa OaFacts Rows Page PageFacts PageRw Db DbFacts DbFlush DbFresh RowShape Dump DumpFacts Setting Device DeviceFacts DeviceTree
  Cli CliFacts CliList Listing Layout LayoutDb Insert Compose PropListing PropStored AcceptStr AcceptPage AcceptDb PropAcceptDb PropBytes Confine.
Import ListNotations.
Local Close Scope string_scope.
Open Scope N_scope.

(** The table for rows of kind [k] in the file [io]: each of its pages holds all that belongs to it, and is the same in the file [io'].  Nothing is said about other pages of [io']. *)
Definition intact (b : build) (db : dbtype) (io io' : list N) (ps : N) (k : rkind) : Prop := exists first last l xss,
  table_at db io k first last /\ pages_from b db io ps last first l /\ Forall2 (confined b db io ps k) l xss /\ Forall (fun i => same_bytes io io' (i * ps) (i * ps + ps)) l.

(** ** The rows of the table *)
Theorem c119_says : forall b db io io' ps k, 40 <= ps -> header_kept io io' -> intact b db io io' ps k -> exists xs, table_says b db io ps k xs /\ table_says b db io' ps k xs.
Proof.
  intros b db io io' ps k HP HH (first & last & l & xss & HT & HC & C & K). exists (List.concat xss). split; [|now apply (kept_says b db io io' ps k first last l xss)].
  apply (kept_says b db io io ps k first last l xss); try assumption.
  - destruct HH as (n & N8 & K1 & K2 & K3). exists n. split; [exact N8|]. now repeat split.
  - revert K. apply Forall_impl. intros i (K1 & K2 & K3). now repeat split.
Qed.
Print Assumptions c119_says.
Lemma header_opens io io' : header_kept io io' -> opens io -> opens io'.
Proof.
  intros (n & N8 & K) (O1 & O2 & n' & O3 & O4). pose proof (kept_num io io' _ _ K) as E. unfold opens. rewrite !E by lia. split; [exact O1|]. split; [exact O2|]. exists n. split; [exact N8|]. now destruct K as (_ & K & _).
Qed.
Lemma header_size io io' ps : header_kept io io' -> number io 4 4 = Some ps -> number io' 4 4 = Some ps.
Proof. intros (n & N8 & K) H. now rewrite (kept_num io io' _ _ K) by lia. Qed.
(** Both files open, and, however much was read before, the rows of the table can be read from both and say the same. *)
Theorem c119_rows : forall b db io io' ps k, bytes_ok io -> bytes_ok io' -> len io < 2 ^ 64 -> len io' < 2 ^ 64 -> opens io -> number io 4 4 = Some ps -> 40 <= ps -> header_kept io io' -> intact b db io io' ps k ->
  (exists d, db_open io' db = DOk d) /\
  forall d d', only_read b io db d -> only_read b io' db d' -> exists rs rs' xs, snd (iter_rows b k d) = Some (DOk rs) /\ snd (iter_rows b k d') = Some (DOk rs') /\
    Forall2 (fun r x => row_says r k (fst x) (snd x)) rs xs /\ Forall2 (fun r x => row_says r k (fst x) (snd x)) rs' xs.
Proof.
  intros b db io io' ps k HB HB' HL HL' HO HN HP HH HI. split; [apply c117_open; now apply (header_opens io)|]. intros d d' R R'. destruct (c119_says b db io io' ps k HP HH HI) as (xs & S & S').
  apply (c117_rows b io db d ps k xs HB HL R HN HP) in S as (rs & E & S). apply (c117_rows b io' db d' ps k xs HB' HL' R' (header_size _ _ _ HH HN) HP) in S' as (rs' & E' & S'). now exists rs, rs', xs.
Qed.
Print Assumptions c119_rows.

(** ** The commands *)
Lemma artist_one x n m : is_artist x n -> is_artist x m -> n = m.
Proof. intros (A1 & A2) (B1 & B2). destruct n, m. cbn in *. congruence. Qed.
Lemma titled_one x n m : is_titled x n -> is_titled x m -> n = m.
Proof. intros (A1 & A2 & A3) (B1 & B2 & B3). destruct n as [? []], m as [? []]. cbn in *. congruence. Qed.
Lemma listing_of b io ps xn xa xt xe : bytes_ok io -> len io < 2 ^ 64 -> opens io -> number io 4 4 = Some ps -> 40 <= ps ->
  table_says b DbPlain io ps KPlaylistTreeNode xn -> table_says b DbPlain io ps KArtist xa -> table_says b DbPlain io ps KTrack xt -> table_says b DbPlain io ps KPlaylistEntry xe ->
  exists ns arts trs es, Forall2 is_node xn ns /\ Forall2 is_artist xa arts /\ Forall2 is_titled xt trs /\ Forall2 is_entry xe es /\
    forall depth, list_playlists b depth io = option_map Done (print_children depth (by_parent ns) (entries_map es) (insert_all arts) (insert_all trs) 0 0).
Proof.
  intros HB HL HO HN HP Sn Sa St Se. apply (c117_open io DbPlain) in HO as [d HO].
  destruct (says_table b io DbPlain d ps _ xn HB HL HO HN HP Sn) as (rn & Tn & Fn & Vn). destruct (says_table b io DbPlain d ps _ xa HB HL HO HN HP Sa) as (ra & Ta & Fa & Va).
  destruct (says_table b io DbPlain d ps _ xt HB HL HO HN HP St) as (rt & Tt & Ft & Vt). destruct (says_table b io DbPlain d ps _ xe HB HL HO HN HP Se) as (re & Te & Fe & Ve).
  destruct (list_rows b io d HB HO) as [_ H]. destruct (H rn ra rt re Tn Ta Tt Te) as (ns & arts & trs & es & Gn & Ga & Gt & Ge & E). exists ns, arts, trs, es.
  split; [revert Vn Fn Gn; apply two_reads; intros a x y _; apply node_says|]. split; [revert Va Fa Ga; apply two_reads; intros a x y; apply artist_says|]. split; [revert Vt Ft Gt; apply two_reads; intros a x y; apply titled_says|].
  split; [revert Ve Fe Ge; apply two_reads; intros a x y _; apply entry_says|]. exact E.
Qed.
(** If the four tables of the listing are intact, the other file is listed in the same way. *)
Theorem c119_listing : forall b io io' ps, bytes_ok io -> bytes_ok io' -> len io < 2 ^ 64 -> len io' < 2 ^ 64 -> opens io -> number io 4 4 = Some ps -> 40 <= ps -> header_kept io io' ->
  (forall k, In k [KPlaylistTreeNode; KArtist; KTrack; KPlaylistEntry] -> intact b DbPlain io io' ps k) -> forall depth, list_playlists b depth io' = list_playlists b depth io.
Proof.
  intros b io io' ps HB HB' HL HL' HO HN HP HH HI depth.
  destruct (c119_says b DbPlain io io' ps KPlaylistTreeNode HP HH (HI KPlaylistTreeNode ltac:(cbn; tauto))) as (xn & Sn & Sn'). destruct (c119_says b DbPlain io io' ps KArtist HP HH (HI KArtist ltac:(cbn; tauto))) as (xa & Sa & Sa').
  destruct (c119_says b DbPlain io io' ps KTrack HP HH (HI KTrack ltac:(cbn; tauto))) as (xt & St & St'). destruct (c119_says b DbPlain io io' ps KPlaylistEntry HP HH (HI KPlaylistEntry ltac:(cbn; tauto))) as (xe & Se & Se').
  destruct (listing_of b io ps xn xa xt xe HB HL HO HN HP Sn Sa St Se) as (ns & arts & trs & es & F1 & F2 & F3 & F4 & E). destruct (listing_of b io' ps xn xa xt xe HB' HL' (header_opens _ _ HH HO) (header_size _ _ _ HH HN) HP Sn' Sa' St' Se') as (ns' & arts' & trs' & es' & F1' & F2' & F3' & F4' & E').
  rewrite E, E'. now rewrite (same_list is_node node_one _ _ _ F1 F1'), (same_list is_artist artist_one _ _ _ F2 F2'), (same_list is_titled titled_one _ _ _ F3 F3'), (same_list is_entry entry_one _ _ _ F4 F4').
Qed.
Print Assumptions c119_listing.
(** The export does not use the artists: three tables are enough. *)
Theorem c119_export : forall b db io io' d d' ps out canon depth ops, bytes_ok io -> bytes_ok io' -> len io < 2 ^ 64 -> len io' < 2 ^ 64 -> db_open io db = DOk d -> db_open io' db = DOk d' -> number io 4 4 = Some ps -> 40 <= ps -> header_kept io io' ->
  (forall k, In k [KPlaylistTreeNode; KPlaylistEntry; KTrack] -> intact b db io io' ps k) -> (export b depth d' out canon = Some (Done ops) <-> export b depth d out canon = Some (Done ops)).
Proof.
  intros b db io io' d d' ps out canon depth ops HB HB' HL HL' HO HO' HN HP HH HI. pose proof (header_size _ _ _ HH HN) as HN'. rewrite (c118_export b io db d ps out canon depth ops), (c118_export b io' db d' ps out canon depth ops) by assumption.
  assert (opens io) as OP by (apply (c117_open io db); now exists d). assert (opens io') as OP' by (apply (c117_open io' db); now exists d').
  assert (forall k xs, In k [KPlaylistTreeNode; KPlaylistEntry; KTrack] -> (table_says b db io' ps k xs <-> table_says b db io ps k xs)) as EQ.
  { intros k xs HK. destruct (c119_says b db io io' ps k HP HH (HI k HK)) as (ys & S & S'). split; intro H.
    - now rewrite (c117_unique b io' db ps k xs ys HB' HL' OP' HN' HP H S').
    - now rewrite (c117_unique b io db ps k xs ys HB HL OP HN HP H S). }
  split; intros (xn & xe & xt & ns & es & raw & tr & ts & c & Xn & Xe & Xt & H); exists xn, xe, xt, ns, es, raw, tr, ts, c; (split; [apply EQ; [cbn; tauto|exact Xn]|]; split; [apply EQ; [cbn; tauto|exact Xe]|]; split; [apply EQ; [cbn; tauto|exact Xt]|exact H]).
Qed.
Print Assumptions c119_export.

(** ** UCS-2 text that begins with the byte 3
    The name of this row is the Chinese character U+4103, and no byte behind it in its page is zero (the unused entries of the group of rows are not, and row 8 is row 0 again).  The page is readable
    as a file of its own.  One byte behind the page decides whether the name is this character or an ISRC of 37 bytes. *)
Definition c119_group : rgroup := mk_rgroup (repeat 257 16) 257 257.
Definition c119_page : page := mk_page (mk_phdr 1 (PT KPlaylistTreeNode) 9 1 0 (mk_counts 1 1) 0x24 12 36)
  (PData (mk_dcontent [VInt 1; VInt 0; VInt 0; VInt 0] [c119_group] [(257, RRow KPlaylistTreeNode [VInt 0; VInt 0; VInt 0; VInt 5; VInt 0; VStr (DSUcs2 [0x4103])] None)])).
Definition c119_file (x : N) : list N :=
  match flush Debug (mk_db (repeat 1 718 ++ [x]) DbPlain (mk_dbhdr 359 1 2 0 7 [mk_table (PT KPlaylistTreeNode) 9 1 1]) [Some c119_page]) with DOk d => db_io d | _ => [] end.
Definition c119_name (io : list N) : option dstr :=
  match db_open io DbPlain with
  | DOk d => match snd (iter_rows Debug KPlaylistTreeNode d) with Some (DOk [RRow _ [_; _; _; _; _; VStr s] _]) => Some s | _ => None end
  | _ => None
  end.
Theorem c119_text_refuted : exists io io' w, bytes_ok io /\ bytes_ok io' /\ header_kept io io' /\ same_bytes io io' 359 718 /\ len w = 359 /\ has io 359 w /\ (exists p, rd_page Debug (rd_dstr Debug) 359 DbPlain w 0 = Ok (p, 359)) /\
  (exists d, db_open io DbPlain = DOk d /\ dh_page_size (db_header d) = 359 /\ map (fun t => (tb_first t, tb_last t)) (dh_tables (db_header d)) = [(1, 1)]) /\
  c119_name io = Some (DSUcs2 [0x4103]) /\ exists s, c119_name io' = Some (DSIsrc s).
Proof.
  assert (forall l, forallb (fun x => x <? 256) l = true -> bytes_ok l) as B. { intros l E. apply Forall_forall. intros x Hx. rewrite forallb_forall in E. specialize (E x Hx). cbv beta in E. lia. }
  assert (forall a c n m, n <= m -> m <= len a -> m <= len c -> takeN (m - n) (dropN n c) = takeN (m - n) (dropN n a) -> same_bytes a c n m) as S.
  { intros a c n m L H1 H2 E. split; [exact H1|]. split; [exact H2|]. intros j Hj. apply (f_equal (fun l => getN l (j - n))) in E. rewrite !getN_takeN, !getN_dropN in E. replace (j - n <? m - n) with true in E by lia. now replace (n + (j - n)) with j in E by lia. }
  exists (c119_file 1), (c119_file 0), (takeN 359 (dropN 359 (c119_file 1))). split; [apply B; vm_compute; reflexivity|]. split; [apply B; vm_compute; reflexivity|]. split.
  - exists 1. split; [vm_compute; reflexivity|]. apply S; [discriminate|vm_compute; discriminate|vm_compute; discriminate|vm_compute; reflexivity].
  - split; [apply S; [discriminate|vm_compute; discriminate|vm_compute; discriminate|vm_compute; reflexivity]|]. split; [vm_compute; reflexivity|]. split; [apply has_take_drop; vm_compute; discriminate|]. split; [eexists; vm_compute; reflexivity|].
    split; [eexists; split; [vm_compute; reflexivity|]; split; reflexivity|]. split; [vm_compute; reflexivity|]. eexists. vm_compute. reflexivity.
Qed.
Print Assumptions c119_text_refuted.

(** ** Example: the file of C76.  If the page of the artists is overwritten, the three other tables are intact; if bytes of page 0 behind the list of tables are, all four are. *)
Definition c119_bytes (i : N) : list N := takeN 600 (dropN (i * 600) c76_io).
Definition c119_said (i : N) : list stored_row :=
  match rd_page Debug (rd_dstr Debug) 600 DbPlain (c119_bytes i) 0 with
  | Ok (p, _) => map (fun r => match r with RRow _ vs c => (numbers vs, texts vs ++ match c with Some a => oa_items a | None => [] end) | RUnknown => ([], []) end) (rows_of_page p)
  | _ => []
  end.
Definition c119_clear (d : dstr) : bool := match d with DSUcs2 [] => false | DSUcs2 (u :: _) => negb (u mod 256 =? 3) | _ => true end.
Lemma c119_clear_ok d : c119_clear d = true -> clear_text d.
Proof. destruct d as [| | |us]; cbn; try easy. destruct us as [|u r]; [discriminate|]. intro H. exists u, r. split; [reflexivity|]. lia. Qed.
Definition c119_check (k : rkind) (i : N) : bool :=
  match rd_page Debug (rd_dstr Debug) 600 DbPlain (c119_bytes i) 0 with
  | Ok (p, _) => forallb (is_variant k) (rows_of_page p) && forallb (fun x => forallb c119_clear (snd x)) (c119_said i)
  | _ => false
  end.
Lemma c119_confined k i : i * 600 + 600 <= 3000 -> c119_check k i = true -> confined Debug DbPlain c76_io 600 k i (c119_said i).
Proof.
  intros L H. assert (len c76_io = 3000) as LC by (vm_compute; reflexivity). assert (has c76_io (i * 600) (c119_bytes i)) as HH by (apply has_take_drop; lia). assert (len (c119_bytes i) = 600) as LB by (unfold c119_bytes; rewrite len_takeN, len_dropN; lia).
  assert (bytes_ok (c119_bytes i)) as HB by (apply (has_bytes_ok c76_io (i * 600)); [exact c76_bytes|exact HH]).
  exists (c119_bytes i). split; [exact LB|]. split; [exact HH|]. unfold c119_check in H. unfold c119_said in *. destruct (rd_page Debug (rd_dstr Debug) 600 DbPlain (c119_bytes i) 0) as [[p fin]| |] eqn:E; try discriminate. apply andb_prop in H as [H1 H2].
  split; [exists fin; apply page_exact; [exact HB|rewrite LB; reflexivity|discriminate|now exists p]|]. split.
  - apply (page_rows_exact Debug 600 DbPlain (c119_bytes i) 0 p fin); [exact HB|rewrite LB; reflexivity|discriminate|exact E|]. clear H2 E. induction (rows_of_page p) as [|r rs IH]; [constructor|]. cbn [forallb] in H1. apply andb_prop in H1 as [V1 V]. cbn [map]. constructor; [|now apply IH].
    destruct r as [k' vs c|]; [|discriminate]. cbn [is_variant] in V1. destruct (rkind_eq_dec k k') as [<-|]; [|discriminate]. now repeat split.
  - rewrite forallb_forall in H2. apply Forall_forall. intros x Hx. specialize (H2 x Hx). rewrite forallb_forall in H2. apply Forall_forall. intros d Hd. apply c119_clear_ok. now apply H2.
Qed.
Lemma c119_intact io' k i : len io' = 3000 -> i * 600 + 600 <= 3000 -> table_at DbPlain c76_io k i i -> page_at Debug DbPlain c76_io 600 i -> c119_check k i = true -> takeN 600 (dropN (i * 600) io') = c119_bytes i -> intact Debug DbPlain c76_io io' 600 k.
Proof.
  intros HL L HT HP HC E. exists i, i, [i], [c119_said i]. split; [exact HT|]. split; [now apply pages_last|]. split; [constructor; [now apply c119_confined|constructor]|]. constructor; [|constructor].
  assert (len c76_io = 3000) as LC by (vm_compute; reflexivity). split; [lia|]. split; [lia|]. intros j Hj. apply (f_equal (fun l => getN l (j - i * 600))) in E. unfold c119_bytes in E. rewrite !getN_takeN, !getN_dropN in E. replace (j - i * 600 <? 600) with true in E by lia. now replace (i * 600 + (j - i * 600)) with j in E by lia.
Qed.
Ltac c119_go HT K i := let T := fresh in let P := fresh in destruct (HT K i ltac:(cbn; tauto)) as [T P]; apply (c119_intact _ K i); [vm_compute; reflexivity|vm_compute; discriminate|exact T|exact P|vm_compute; reflexivity|vm_compute; reflexivity].
Definition c119_damaged : list N := Eval vm_compute in write_at c76_io 100 (repeat 255 500).
Example c119_example :
  (header_kept c76_io c76_broken /\ (forall k, In k [KPlaylistTreeNode; KPlaylistEntry; KTrack] -> intact Debug DbPlain c76_io c76_broken 600 k)) /\
  (header_kept c76_io c119_damaged /\ c119_damaged <> c76_io /\ (forall k, In k [KPlaylistTreeNode; KArtist; KTrack; KPlaylistEntry] -> intact Debug DbPlain c76_io c119_damaged 600 k)).
Proof.
  assert (forall io', takeN 92 io' = takeN 92 c76_io -> 92 <= len io' -> header_kept c76_io io') as HH.
  { intros io' E L. exists 4. split; [vm_compute; reflexivity|]. split; [vm_compute; discriminate|]. split; [exact L|]. intros j Hj. apply (f_equal (fun l => getN l j)) in E. rewrite !getN_takeN in E. now replace (j <? 92) with true in E by lia. }
  assert (forall k i, In (k, i) [(KPlaylistTreeNode, 1); (KArtist, 2); (KTrack, 3); (KPlaylistEntry, 4)] -> table_at DbPlain c76_io k i i /\ page_at Debug DbPlain c76_io 600 i) as HT.
  { intros k i H. split.
    - apply (find_exact Debug c76_io DbPlain c76_open k (open_fresh _ _ _ _ c76_opens)). cbn in H. decompose [or] H; try easy; match goal with X : (_, _) = _ |- _ => injection X as <- <- end; eexists _, _; (split; [vm_compute; reflexivity|split; reflexivity]).
    - apply (fresh_page_at Debug c76_io DbPlain c76_open i c76_bytes); [reflexivity|exact (open_fresh _ _ _ _ c76_opens)|discriminate|]. cbn in H. decompose [or] H; try easy; match goal with X : (_, _) = _ |- _ => injection X as <- <- end; eexists; (split; [discriminate|right; split; [reflexivity|vm_compute; reflexivity]]). }
  split.
  - split; [apply HH; vm_compute; [reflexivity|discriminate]|]. intros k [<-|[<-|[<-|[]]]]; [c119_go HT KPlaylistTreeNode 1|c119_go HT KPlaylistEntry 4|c119_go HT KTrack 3].
  - split; [apply HH; vm_compute; [reflexivity|discriminate]|]. split; [vm_compute; discriminate|]. intros k [<-|[<-|[<-|[<-|[]]]]]; [c119_go HT KPlaylistTreeNode 1|c119_go HT KArtist 2|c119_go HT KTrack 3|c119_go HT KPlaylistEntry 4].
Qed.
