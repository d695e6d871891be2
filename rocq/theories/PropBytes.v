(** * Property C118: what list-playlists prints and export-playlists writes, from the bytes of the file alone *)
From Coq Require Import NArith ZArith List Bool Lia Sorted Relations String.
From Coq Require Import ZifyBool ZifyNat ZifyN.
From Verif Require Import Base BaseFacts Segs Utf Str StrFacts Schema Oa OaFacts Rows Page PageRw Db DbFacts DbFlush DbFresh RowShape Dump DumpFacts Setting Device DeviceFacts DeviceTree
  Cli CliFacts CliList Listing Layout LayoutDb Insert Compose PropListing PropStored AcceptStr AcceptPage AcceptDb PropAcceptDb.
Import ListNotations.
Local Close Scope string_scope.
Open Scope N_scope.

(** ** What the rows are used for; a row is given by its numbers and its strings, in the order of C115 *)
Definition stored_row : Type := list N * list dstr.
(** A node of the tree: its parent, its own number, whether it is a folder, its name. *)
Definition is_node (x : stored_row) (n : node) : Prop := nth_error (fst x) 0 = Some (nd_parent n) /\ nth_error (fst x) 3 = Some (nd_id n) /\ nth_error (fst x) 4 = Some (nd_isf n) /\ nth_error (snd x) 0 = Some (nd_name n).
(** An entry of a playlist: its place, the track, the playlist. *)
Definition is_entry (x : stored_row) (e : pentry) : Prop := fst x = [pe_index e; pe_track e; pe_playlist e].
(** An artist: number and name. *)
Definition is_artist (x : stored_row) (a : N * dstr) : Prop := nth_error (fst x) 2 = Some (fst a) /\ nth_error (snd x) 0 = Some (snd a).
(** A track: number, number of the artist, and title; or number and path. *)
Definition is_titled (x : stored_row) (t : N * (N * dstr)) : Prop := nth_error (fst x) 20 = Some (fst t) /\ nth_error (fst x) 19 = Some (fst (snd t)) /\ nth_error (snd x) 17 = Some (snd (snd t)).
Definition is_located (x : stored_row) (p : N * dstr) : Prop := nth_error (fst x) 20 = Some (fst p) /\ nth_error (snd x) 20 = Some (snd p).

(** ** Rows *)
Lemma no_texts : forall fs vs, Forall2 vshape fs vs -> forallb (fun f => match f with FStr => false | _ => true end) fs = true -> texts vs = [].
Proof.
  intros fs vs H. induction H as [|f v fs vs H _ IH]; intro E; [reflexivity|]. cbn [forallb] in E. apply andb_prop in E as [E1 E]. rewrite texts_cons, IH by exact E. destruct f, v; try discriminate; try destruct H; reflexivity.
Qed.
Lemma node_says r x n : row_says r KPlaylistTreeNode (fst x) (snd x) -> node_of_row r = Some n -> is_node x n.
Proof.
  intros S H. destruct r as [k vs c|]; [|destruct S]. destruct S as (-> & S1 & S2). cbn [node_of_row] in H.
  destruct vs as [|[x0| | | | |] vs]; try discriminate. destruct vs as [|[x1| | | | |] vs]; try discriminate. destruct vs as [|[x2| | | | |] vs]; try discriminate. destruct vs as [|[x3| | | | |] vs]; try discriminate. destruct vs as [|[x4| | | | |] vs]; try discriminate. destruct vs as [|[| | | | |s] vs]; try discriminate. destruct vs; [|discriminate]. injection H as <-. unfold is_node. rewrite <- S1, <- S2. now repeat split.
Qed.
Lemma entry_says r x e : row_says r KPlaylistEntry (fst x) (snd x) -> pentry_of_row r = Some e -> is_entry x e.
Proof.
  intros S H. destruct r as [k vs c|]; [|destruct S]. destruct S as (-> & S1 & S2). cbn [pentry_of_row] in H.
  destruct vs as [|[x0| | | | |] vs]; try discriminate. destruct vs as [|[x1| | | | |] vs]; try discriminate. destruct vs as [|[x2| | | | |] vs]; try discriminate. destruct vs; [|discriminate]. injection H as <-. unfold is_entry. now rewrite <- S1.
Qed.
Lemma artist_says r x a : row_shaped r -> row_says r KArtist (fst x) (snd x) -> artist_of_row r = Some a -> is_artist x a.
Proof.
  intros HS S H. destruct r as [k vs c|]; [|destruct S]. destruct S as (-> & S1 & S2). destruct HS as [F _]. cbn [artist_of_row] in H. destruct c as [c|]; [|discriminate].
  destruct (nth_error vs 2) as [[i| | | | |]|] eqn:E; try discriminate. destruct (nth_error (oa_items c) 0) as [s|] eqn:E2; [|discriminate]. injection H as <-.
  rewrite (no_texts _ _ F) in S2 by reflexivity. cbn [app] in S2. split; cbn [fst snd]; [rewrite <- S1; now apply (numbers_nth 2 (row_fields KArtist))|now rewrite <- S2].
Qed.
Lemma titled_says r x t : row_shaped r -> row_says r KTrack (fst x) (snd x) -> listed_track_of_row r = Some t -> is_titled x t.
Proof.
  intros HS S H. destruct r as [k vs c|]; [|destruct S]. destruct S as (-> & S1 & S2). destruct HS as [F _]. cbn [listed_track_of_row] in H. destruct c as [c|]; [|discriminate].
  destruct (nth_error vs 20) as [[i| | | | |]|] eqn:E; try discriminate. destruct (nth_error vs 19) as [[a| | | | |]|] eqn:E1; try discriminate. destruct (nth_error (oa_items c) 17) as [s|] eqn:E2; [|discriminate]. injection H as <-.
  rewrite (no_texts _ _ F) in S2 by reflexivity. cbn [app] in S2. repeat split; cbn [fst snd]; [rewrite <- S1; now apply (numbers_nth 20 (row_fields KTrack))|rewrite <- S1; now apply (numbers_nth 19 (row_fields KTrack))|now rewrite <- S2].
Qed.
Lemma located_says r x t : row_shaped r -> row_says r KTrack (fst x) (snd x) -> track_of_row r = Some t -> is_located x t.
Proof.
  intros HS S H. destruct r as [k vs c|]; [|destruct S]. destruct S as (-> & S1 & S2). destruct HS as [F _]. cbn [track_of_row] in H. destruct c as [c|]; [|discriminate].
  destruct (nth_error vs 20) as [[i| | | | |]|] eqn:E; try discriminate. destruct (nth_error (oa_items c) 20) as [s|] eqn:E2; [|discriminate]. injection H as <-.
  rewrite (no_texts _ _ F) in S2 by reflexivity. cbn [app] in S2. split; cbn [fst snd]; [rewrite <- S1; now apply (numbers_nth 20 (row_fields KTrack))|now rewrite <- S2].
Qed.
Lemma two_reads {A B C : Type} (P : A -> B -> Prop) (Q : A -> C -> Prop) (R : B -> C -> Prop) (V : A -> Prop) : (forall a x y, V a -> P a x -> Q a y -> R x y) ->
  forall l xs ys, Forall V l -> Forall2 P l xs -> Forall2 Q l ys -> Forall2 R xs ys.
Proof.
  intros H l xs ys HV HP. revert ys HV. induction HP as [|a x l xs HP _ IH]; intros ys HV HQ; inversion HQ as [|? y ? ys' Q1 Q2]; subst; [constructor|]. inversion HV; subst. constructor; [now apply (H a)|now apply IH].
Qed.
Lemma same_list {A B : Type} (R : A -> B -> Prop) : (forall a x y, R a x -> R a y -> x = y) -> forall l xs ys, Forall2 R l xs -> Forall2 R l ys -> xs = ys.
Proof. intros H l xs ys HX. revert ys. induction HX as [|a x l xs HX _ IH]; intros ys HY; inversion HY as [|? y ? ys' Y1 Y2]; subst; [reflexivity|]. f_equal; [now apply (H a)|now apply IH]. Qed.
Lemma node_one x n m : is_node x n -> is_node x m -> n = m.
Proof. intros (A1 & A2 & A3 & A4) (B1 & B2 & B3 & B4). destruct n, m. cbn in *. congruence. Qed.
Lemma entry_one x n m : is_entry x n -> is_entry x m -> n = m.
Proof. unfold is_entry. intros A B. destruct n, m. cbn in *. congruence. Qed.
Lemma located_one x n m : is_located x n -> is_located x m -> n = m.
Proof. intros (A1 & A2) (B1 & B2). destruct n, m. cbn in *. congruence. Qed.

(** ** Tables *)
Lemma says_table b io db d ps k xs : bytes_ok io -> len io < 2 ^ 64 -> db_open io db = DOk d -> number io 4 4 = Some ps -> 40 <= ps -> table_says b db io ps k xs ->
  exists rows, table_in b db (db_header d) io k (DOk rows) /\ Forall2 (says k) rows xs /\ Forall row_shaped rows.
Proof.
  intros HB HL HO HN HP HS. apply (c117_rows b io db d ps k xs HB HL (or_open _ _ _ _ HO) HN HP) in HS as (rows & E & HS). exists rows. destruct (iter_rows_spec b io db k d HB (open_fresh b io db d HO)) as (y & E' & HT). assert (y = DOk rows) as -> by congruence.
  split; [exact HT|]. split; [exact HS|]. apply iter_rows_shaped in E; [|now apply (open_shaped io db)]. revert E. apply Forall_impl. now intros r [H _].
Qed.
Lemma table_is_said b io db d ps k rows : bytes_ok io -> len io < 2 ^ 64 -> db_open io db = DOk d -> number io 4 4 = Some ps -> 40 <= ps -> table_in b db (db_header d) io k (DOk rows) ->
  exists xs, table_says b db io ps k xs /\ Forall2 (says k) rows xs /\ Forall row_shaped rows.
Proof.
  intros HB HL HO HN HP HT. pose proof (iter_rows_is b io db k d _ HB (open_fresh b io db d HO) HT) as E. destruct (proj1 (c117_readable b io db d ps k HB HL (or_open _ _ _ _ HO) HN HP) (ex_intro _ rows E)) as [xs HX]. exists xs. split; [exact HX|].
  destruct (says_table b io db d ps k xs HB HL HO HN HP HX) as (rows' & HT' & H1 & H2). pose proof (table_in_fun _ _ _ _ _ _ _ HT HT') as ER. injection ER as ->. now split.
Qed.

(** ** The theorems *)
(** The lines of the listing, if the four tables are there: those of C76, for the nodes, artists, tracks and entries that the bytes say. *)
Theorem c118_listing : forall b io ps xn xa xt xe, bytes_ok io -> len io < 2 ^ 64 -> opens io -> number io 4 4 = Some ps -> 40 <= ps ->
  table_says b DbPlain io ps KPlaylistTreeNode xn -> table_says b DbPlain io ps KArtist xa -> table_says b DbPlain io ps KTrack xt -> table_says b DbPlain io ps KPlaylistEntry xe ->
  exists ns arts trs es, Forall2 is_node xn ns /\ Forall2 is_artist xa arts /\ Forall2 is_titled xt trs /\ Forall2 is_entry xe es /\
    (NoDup (map nd_id ns) /\ ~ In 0 (map nd_id ns) -> exists (v : list (nat * node)) (ls : list (list CliList.item)),
       (forall depth, (List.length xn < depth)%nat -> list_playlists b depth io = Some (Done (shown (List.concat ls)))) /\
       Forall2 (node_lines es arts trs) v ls /\
       NoDup (map snd v) /\
       (forall n, In n (map snd v) <-> In n ns /\ clos_refl_trans_1n N (under ns) 0 (nd_parent n)) /\
       (forall k n, In (k, n) v -> path_len ns k 0 (nd_parent n)) /\
       (forall k n l1 l2, v = l1 ++ (k, n) :: l2 -> (k = 0%nat /\ nd_parent n = 0) \/
          exists p, last_of (fun y => (fst y < k)%nat) l1 p /\ S (fst p) = k /\ nd_id (snd p) = nd_parent n) /\
       (forall p, clos_refl_trans_1n N (under ns) 0 p -> filter (fun n => nd_parent n =? p) (map snd v) = filter (fun n => nd_parent n =? p) ns)).
Proof.
  intros b io ps xn xa xt xe HB HL HO HN HP Sn Sa St Se. apply (c117_open io DbPlain) in HO as [d HO].
  destruct (says_table b io DbPlain d ps _ xn HB HL HO HN HP Sn) as (rn & Tn & Fn & Vn). destruct (says_table b io DbPlain d ps _ xa HB HL HO HN HP Sa) as (ra & Ta & Fa & Va).
  destruct (says_table b io DbPlain d ps _ xt HB HL HO HN HP St) as (rt & Tt & Ft & Vt). destruct (says_table b io DbPlain d ps _ xe HB HL HO HN HP Se) as (re & Te & Fe & Ve).
  destruct (c76_lines b io d rn ra rt re HB HO Tn Ta Tt Te) as (ns & arts & trs & es & Gn & Ga & Gt & Ge & H). exists ns, arts, trs, es.
  assert (Forall2 is_node xn ns) as Kn by (revert Vn Fn Gn; apply two_reads; intros a x y _; apply node_says). split; [exact Kn|].
  split; [revert Va Fa Ga; apply two_reads; intros a x y; apply artist_says|]. split; [revert Vt Ft Gt; apply two_reads; intros a x y; apply titled_says|].
  split; [revert Ve Fe Ge; apply two_reads; intros a x y _; apply entry_says|]. intro HD. destruct (H HD) as (v & ls & H1 & H2). exists v, ls. assert (List.length xn = List.length ns) as -> by (clear -Kn; induction Kn; cbn; congruence). now split.
Qed.
Print Assumptions c118_listing.
(** Without one of the four tables, or if the file does not open, there is an error or a panic, and nothing is printed. *)
Theorem c118_listed : forall b io ps depth out, bytes_ok io -> len io < 2 ^ 64 -> number io 4 4 = Some ps -> 40 <= ps -> list_playlists b depth io = Some (Done out) ->
  opens io /\ forall k, In k [KPlaylistTreeNode; KArtist; KTrack; KPlaylistEntry] -> exists xs, table_says b DbPlain io ps k xs.
Proof.
  intros b io ps depth out HB HL HN HP H. destruct (db_open io DbPlain) as [d|e|] eqn:HO; [|unfold list_playlists in H; rewrite HO in H; discriminate|unfold list_playlists in H; rewrite HO in H; discriminate].
  split; [apply (c117_open io DbPlain); now exists d|].
  assert (forall l1 k l2, [KPlaylistTreeNode; KArtist; KTrack; KPlaylistEntry] = l1 ++ k :: l2 -> (forall k', In k' l1 -> exists rows, table_in b DbPlain (db_header d) io k' (DOk rows)) -> exists rows, table_in b DbPlain (db_header d) io k (DOk rows)) as HS.
  { intros l1 k l2 E HI. destruct (c76_error b io d l1 k l2 HB HO E HI) as [H1 H2]. destruct (c76_tables b DbPlain io d k HB HO) as ([rows|e|] & T & _); [now exists rows|rewrite (H1 e T) in H; discriminate|rewrite (H2 T) in H; discriminate]. }
  assert (forall k, In k [KPlaylistTreeNode; KArtist; KTrack; KPlaylistEntry] -> exists rows, table_in b DbPlain (db_header d) io k (DOk rows)) as HA.
  { assert (exists rows, table_in b DbPlain (db_header d) io KPlaylistTreeNode (DOk rows)) as A1 by (apply (HS [] _ _ eq_refl); intros k' []).
    assert (exists rows, table_in b DbPlain (db_header d) io KArtist (DOk rows)) as A2 by (apply (HS [_] _ _ eq_refl); intros k' [<-|[]]; assumption).
    assert (exists rows, table_in b DbPlain (db_header d) io KTrack (DOk rows)) as A3 by (apply (HS [_; _] _ _ eq_refl); intros k' [<-|[<-|[]]]; assumption).
    assert (exists rows, table_in b DbPlain (db_header d) io KPlaylistEntry (DOk rows)) as A4 by (apply (HS [_; _; _] _ _ eq_refl); intros k' [<-|[<-|[<-|[]]]]; assumption).
    intros k [<-|[<-|[<-|[<-|[]]]]]; assumption. }
  intros k HK. destruct (HA k HK) as [rows T]. destruct (table_is_said b io DbPlain d ps k rows HB HL HO HN HP T) as (xs & HX & _). now exists xs.
Qed.
Print Assumptions c118_listed.
(** An export does the operations [ops] if and only if the bytes of the three tables lead to them. *)
Theorem c118_export : forall b io db d ps out canon depth ops, bytes_ok io -> len io < 2 ^ 64 -> db_open io db = DOk d -> number io 4 4 = Some ps -> 40 <= ps ->
  (export b depth d out canon = Some (Done ops) <-> exists xn xe xt ns es raw tr ts c,
     table_says b db io ps KPlaylistTreeNode xn /\ table_says b db io ps KPlaylistEntry xe /\ table_says b db io ps KTrack xt /\
     Forall2 is_node xn ns /\ Forall2 is_entry xe es /\ Forall2 is_located xt raw /\ Forall2 (fun x y => fst x = fst y /\ dstr_into_string (snd x) = inl (snd y)) raw tr /\
     playlist_tree depth ns = Some (Done ts) /\ (forall id, playlist_text canon es tr id (c id)) /\ ops = flat_map (fun t => walk c t out) ts).
Proof.
  intros b io db d ps out canon depth ops HB HL HO HN HP. pose proof (c77_export b io db d out canon depth HB HO) as HE. split.
  - intro H. rewrite H in HE. destruct HE as (rn & re & rt & ns & es & raw & tr & ts & c & Tn & Te & Tt & Fn & Fe & Ft & HD & HT & HC & HX).
    destruct (table_is_said b io db d ps _ rn HB HL HO HN HP Tn) as (xn & Xn & Sn & Vn). destruct (table_is_said b io db d ps _ re HB HL HO HN HP Te) as (xe & Xe & Se & Ve). destruct (table_is_said b io db d ps _ rt HB HL HO HN HP Tt) as (xt & Xt & St & Vt).
    exists xn, xe, xt, ns, es, raw, tr, ts, c. split; [exact Xn|]. split; [exact Xe|]. split; [exact Xt|]. split; [revert Vn Sn Fn; apply two_reads; intros a x y _; apply node_says|]. split; [revert Ve Se Fe; apply two_reads; intros a x y _; apply entry_says|].
    split; [revert Vt St Ft; apply two_reads; intros a x y; apply located_says|]. now repeat split.
  - intros (xn & xe & xt & ns & es & raw & tr & ts & c & Xn & Xe & Xt & Kn & Ke & Kt & HD & HT & HC & ->). clear HE. pose proof (open_fresh b io db d HO) as HF. pose proof (open_shaped io db d HO) as HV.
    destruct (says_table b io db d ps _ xn HB HL HO HN HP Xn) as (rn & Tn & Sn & Vn). destruct (says_table b io db d ps _ xe HB HL HO HN HP Xe) as (re & Te & Se & Ve). destruct (says_table b io db d ps _ xt HB HL HO HN HP Xt) as (rt & Tt & St & Vt).
    destruct (fresh_iter_rows b io db KPlaylistTreeNode d HB HF) as [HF1 HH1]. destruct (fresh_iter_rows b io db KPlaylistEntry _ HB HF1) as [HF2 HH2].
    destruct (export_rows b d out canon rn re rt HV) as (ns' & es' & raw' & Fn & Fe & Ft & H).
    { now apply (iter_rows_is b io db). } { apply (iter_rows_is b io db); [exact HB|exact HF1|]. now rewrite HH1. } { apply (iter_rows_is b io db); [exact HB|exact HF2|]. now rewrite HH2, HH1. }
    assert (ns' = ns) as ->. { apply (same_list is_node) with xn; [exact node_one| |exact Kn]. revert Vn Sn Fn; apply two_reads; intros a x y _; apply node_says. }
    assert (es' = es) as ->. { apply (same_list is_entry) with xe; [exact entry_one| |exact Ke]. revert Ve Se Fe; apply two_reads; intros a x y _; apply entry_says. }
    assert (raw' = raw) as ->. { apply (same_list is_located) with xt; [exact located_one| |exact Kt]. revert Vt St Ft; apply two_reads; intros a x y; apply located_says. }
    destruct H as (tr' & HD' & H). { intros i s HI. clear -HD HI. induction HD as [|x y raw tr [_ HX] _ IH]; [destruct HI|]. destruct HI as [->|HI]; [now exists (snd y)|now apply IH]. }
    assert (tr' = tr) as ->. { apply (same_list (fun x y => fst x = fst y /\ dstr_into_string (snd x) = inl (snd y))) with raw; [|exact HD'|exact HD]. intros a [x1 x2] [y1 y2] [A1 A2] [B1 B2]. cbn in *. congruence. }
    rewrite H, HT. do 2 f_equal. apply flat_map_ext. intro t. apply walk_ext. intro id. apply (text_fun canon es tr id); [apply HC|apply content_text].
Qed.
Print Assumptions c118_export.

(** ** Example: the file of C76 *)
Definition c118_said (k : rkind) : list stored_row :=
  match snd (iter_rows Debug k c76_open) with
  | Some (DOk rs) => map (fun r => match r with RRow _ vs c => (numbers vs, texts vs ++ match c with Some a => oa_items a | None => [] end) | RUnknown => ([], []) end) rs
  | _ => []
  end.
Lemma c118_says k : match snd (iter_rows Debug k c76_open) with Some (DOk _) => true | _ => false end = true -> table_says Debug DbPlain c76_io 600 k (c118_said k).
Proof.
  intro H. apply (c117_rows Debug c76_io DbPlain c76_open 600 k _ c76_bytes); [reflexivity|exact (or_open _ _ _ _ c76_opens)|reflexivity|discriminate|]. unfold c118_said.
  destruct (snd (iter_rows Debug k c76_open)) as [[rs|e|]|] eqn:E; try discriminate. exists rs. split; [reflexivity|]. apply iter_rows_iff in E as (_ & _ & _ & _ & _ & _ & V). clear H.
  induction rs as [|r rs IH]; [constructor|]. cbn [forallb] in V. apply andb_prop in V as [V1 V]. cbn [map]. constructor; [|now apply IH]. destruct r as [k' vs c|]; [|discriminate]. cbn [is_variant] in V1. destruct (rkind_eq_dec k k') as [<-|]; [|discriminate]. now repeat split.
Qed.
Example c118_example : opens c76_io /\ number c76_io 4 4 = Some 600 /\
  (exists xe, table_says Debug DbPlain c76_io 600 KPlaylistEntry xe /\ xe = [([2; 40; 5], []); ([1; 41; 5], []); ([1; 42; 3], [])]) /\
  (exists xa, table_says Debug DbPlain c76_io 600 KArtist xa /\ xa = [([0x60; 0; 7], [DSShort (bytes_of "Ann")])]) /\
  (exists xt, table_says Debug DbPlain c76_io 600 KTrack xt /\ Forall2 is_titled xt [(40, (7, DSShort (bytes_of "One"))); (41, (8, DSShort (bytes_of "Two")))] /\
     Forall2 is_located xt [(40, DSShort (bytes_of "/a.mp3")); (41, DSShort (bytes_of "/b.mp3"))]) /\
  (exists xn, table_says Debug DbPlain c76_io 600 KPlaylistTreeNode xn /\ Forall2 is_node xn [mk_node 2 5 0 (DSShort (bytes_of "Deep")); mk_node 0 2 1 (DSShort (bytes_of "Sets")); mk_node 0 3 0 (DSShort (bytes_of "Mix"))]).
Proof.
  split; [apply (c117_open c76_io DbPlain); exists c76_open; exact c76_opens|]. split; [reflexivity|].
  split; [exists (c118_said KPlaylistEntry); split; [apply c118_says|]; vm_compute; reflexivity|]. split; [exists (c118_said KArtist); split; [apply c118_says|]; vm_compute; reflexivity|]. split.
  - exists (c118_said KTrack). split; [apply c118_says; vm_compute; reflexivity|]. pose (x := c118_said KTrack). assert (c118_said KTrack = x) as -> by reflexivity. vm_compute in x. split; repeat constructor.
  - exists (c118_said KPlaylistTreeNode). split; [apply c118_says; vm_compute; reflexivity|]. pose (x := c118_said KPlaylistTreeNode). assert (c118_said KPlaylistTreeNode = x) as -> by reflexivity. vm_compute in x. repeat constructor.
Qed.
