(** * Property C99: a row deleted from the database, the listing of the playlists and the export *)
From Coq Require Import NArith ZArith List Bool Lia Sorted Relations String.
From Coq Require Import ZifyBool ZifyNat ZifyN.
From Verif Require Import Base BaseFacts Segs Utf Str StrFacts StrGood Schema SchemaFacts Oa OaFacts OaSpec Rows RowFacts RowSpec Page BitFacts PageFacts PageRw PageSpec Alloc AllocFacts AllocSpec
  Db DbFacts DbFlush DbFresh RowShape Reread Progress Insert Session Delete Revise Dump DumpFacts Setting Device DeviceFacts DeviceTree Cli CliFacts CliList Listing Compose Graft ComposeList ComposeEdit ComposeDelete Check
  PropListing PropCompose PropGraft PropSession PropRevise PropString PropDelete PropCheck PropComposeList PropComposeEdit.
Import ListNotations.
Local Close Scope string_scope.
Open Scope N_scope.

(** ** Vocabulary *)
(** A program opens the file, loads a page of table [kd], takes row [r] out of it as in Delete.v, and saves.  The other tables of the listing have other pages. *)
Definition deleted (b : build) (io : list N) (kd : rkind) (r : row) (io' : list N) : Prop :=
  exists d G A j s a z, db_open io DbPlain = DOk d /\ stores b d G A /\
    (forall kd', In kd' listed_tables -> exists l, chain A (db_header d) kd' l /\ (In j l <-> kd' = kd)) /\
    A j = Some s /\ G j <> GAny /\ sh_rows s = a ++ r :: z /\
    program b DbPlain io [ADelete j (len a)] io'.

(** ** Lemmas *)
Lemma deleted_tables b io kd r io' d : db_open io DbPlain = DOk d -> deleted b io kd r io' ->
  exists d', db_open io' DbPlain = DOk d' /\ bytes_ok io /\ bytes_ok io' /\
    (forall kd' rows, In kd' listed_tables -> kd' <> kd -> table_in b DbPlain (db_header d) io kd' (DOk rows) ->
       exists mid rows', Forall2 same_values mid rows /\ Forall2 same_values mid rows' /\ table_in b DbPlain (db_header d') io' kd' (DOk rows')) /\
    (forall rows, In kd listed_tables -> table_in b DbPlain (db_header d) io kd (DOk rows) ->
       exists R1 R2 rows', Forall2 same_values (R1 ++ r :: R2) rows /\ Forall2 same_values (R1 ++ R2) rows' /\ table_in b DbPlain (db_header d') io' kd (DOk rows')).
Proof.
  intros HO (d0 & G & A & j & s & a & z & HO0 & HST & HC & EA & EG & ER & HPR). assert (d0 = d) as -> by congruence. clear HO0.
  destruct (one_delete b io d G A io' j s a z r HO HST EA EG ER HPR) as (d' & O' & H' & B' & HN & HY). exists d'. split; [exact O'|]. split; [exact (stores_bytes b io DbPlain d G A HO HST)|]. split; [exact B'|]. rewrite H'. split.
  - intros kd' rows I NE T. destruct (HC kd' I) as (l & C & II). apply (HN kd' l rows C); [tauto|exact T].
  - intros rows I T. destruct (HC kd I) as (l & C & II). exact (HY kd l rows C (proj2 II eq_refl) T).
Qed.
Lemma distinct_less ns1 nd ns2 : distinct (ns1 ++ nd :: ns2) -> distinct (ns1 ++ ns2) /\ Forall (fun m => nd_id m <> nd_id nd) (ns1 ++ ns2).
Proof.
  intros [D1 D2]. unfold distinct. rewrite map_app in *. cbn [map] in *. split; [split; [now apply NoDup_remove_1 in D1|]|].
  - intro I. apply D2. apply in_app_or in I. apply in_or_app. cbn [In]. tauto.
  - apply NoDup_remove_2 in D1. rewrite <- map_app in D1. apply Forall_forall. intros m M E. apply D1. rewrite <- E. now apply in_map.
Qed.

(** ** The theorems *)
(** C99.  The tables then have the same rows without this one, so the theorems apply again. *)
Theorem c99_rows : forall b io kd r io' ns arts trs es, listing_rows b io ns arts trs es -> deleted b io kd r io' ->
  (kd = KPlaylistTreeNode -> exists ns1 nd ns2, ns = ns1 ++ nd :: ns2 /\ node_of_row r = Some nd /\ listing_rows b io' (ns1 ++ ns2) arts trs es) /\
  (kd = KArtist -> exists l1 a l2, arts = l1 ++ a :: l2 /\ artist_of_row r = Some a /\ listing_rows b io' ns (l1 ++ l2) trs es) /\
  (kd = KTrack -> exists l1 t l2, trs = l1 ++ t :: l2 /\ listed_track_of_row r = Some t /\ listing_rows b io' ns arts (l1 ++ l2) es) /\
  (kd = KPlaylistEntry -> exists l1 e l2, es = l1 ++ e :: l2 /\ pentry_of_row r = Some e /\ listing_rows b io' ns arts trs (l1 ++ l2)).
Proof.
  intros b io kd r io' ns arts trs es (d & rn & ra & rt & re & HB & HO & Tn & Fn & Ta & Fa & Tt & Ft & Te & Fe) HE.
  destruct (deleted_tables b io kd r io' d HO HE) as (d' & O' & _ & B' & HN & HY). destruct listed_all as (I1 & I2 & I3 & I4).
  split; [|split; [|split]]; intros ->.
  - destruct (HY rn I1 Tn) as (R1 & R2 & rn' & F1 & F2 & Tn'). destruct (same_less node_of_row R1 r R2 rn rn' ns same_node F1 F2 Fn) as (ns1 & nd & ns2 & EN & EO & Fn').
    destruct (HN KArtist ra I2) as (ma & ra' & A1 & A2 & Ta'); [easy|easy|]. destruct (HN KTrack rt I3) as (mt & rt' & T1 & T2 & Tt'); [easy|easy|]. destruct (HN KPlaylistEntry re I4) as (me & re' & E1 & E2 & Te'); [easy|easy|].
    exists ns1, nd, ns2. split; [easy|]. split; [easy|]. exists d', rn', ra', rt', re'. do 4 (split; [easy|]). split; [easy|]. split; [exact (same_both _ _ _ _ _ same_artist A1 A2 Fa)|]. split; [easy|].
    split; [exact (same_both _ _ _ _ _ same_listed_track T1 T2 Ft)|]. split; [easy|]. exact (same_both _ _ _ _ _ same_pentry E1 E2 Fe).
  - destruct (HY ra I2 Ta) as (R1 & R2 & ra' & F1 & F2 & Ta'). destruct (same_less artist_of_row R1 r R2 ra ra' arts same_artist F1 F2 Fa) as (l1 & old & l2 & EN & EO & Fa').
    destruct (HN KPlaylistTreeNode rn I1) as (mn & rn' & N1 & N2 & Tn'); [easy|easy|]. destruct (HN KTrack rt I3) as (mt & rt' & T1 & T2 & Tt'); [easy|easy|]. destruct (HN KPlaylistEntry re I4) as (me & re' & E1 & E2 & Te'); [easy|easy|].
    exists l1, old, l2. split; [easy|]. split; [easy|]. exists d', rn', ra', rt', re'. do 3 (split; [easy|]). split; [exact (same_both _ _ _ _ _ same_node N1 N2 Fn)|]. do 3 (split; [easy|]).
    split; [exact (same_both _ _ _ _ _ same_listed_track T1 T2 Ft)|]. split; [easy|]. exact (same_both _ _ _ _ _ same_pentry E1 E2 Fe).
  - destruct (HY rt I3 Tt) as (R1 & R2 & rt' & F1 & F2 & Tt'). destruct (same_less listed_track_of_row R1 r R2 rt rt' trs same_listed_track F1 F2 Ft) as (l1 & old & l2 & EN & EO & Ft').
    destruct (HN KPlaylistTreeNode rn I1) as (mn & rn' & N1 & N2 & Tn'); [easy|easy|]. destruct (HN KArtist ra I2) as (ma & ra' & A1 & A2 & Ta'); [easy|easy|]. destruct (HN KPlaylistEntry re I4) as (me & re' & E1 & E2 & Te'); [easy|easy|].
    exists l1, old, l2. split; [easy|]. split; [easy|]. exists d', rn', ra', rt', re'. do 3 (split; [easy|]). split; [exact (same_both _ _ _ _ _ same_node N1 N2 Fn)|]. split; [easy|]. split; [exact (same_both _ _ _ _ _ same_artist A1 A2 Fa)|].
    do 3 (split; [easy|]). exact (same_both _ _ _ _ _ same_pentry E1 E2 Fe).
  - destruct (HY re I4 Te) as (R1 & R2 & re' & F1 & F2 & Te'). destruct (same_less pentry_of_row R1 r R2 re re' es same_pentry F1 F2 Fe) as (l1 & old & l2 & EN & EO & Fe').
    destruct (HN KPlaylistTreeNode rn I1) as (mn & rn' & N1 & N2 & Tn'); [easy|easy|]. destruct (HN KArtist ra I2) as (ma & ra' & A1 & A2 & Ta'); [easy|easy|]. destruct (HN KTrack rt I3) as (mt & rt' & T1 & T2 & Tt'); [easy|easy|].
    exists l1, old, l2. split; [easy|]. split; [easy|]. exists d', rn', ra', rt', re'. do 3 (split; [easy|]). split; [exact (same_both _ _ _ _ _ same_node N1 N2 Fn)|]. split; [easy|]. split; [exact (same_both _ _ _ _ _ same_artist A1 A2 Fa)|].
    split; [easy|]. split; [exact (same_both _ _ _ _ _ same_listed_track T1 T2 Ft)|]. now split.
Qed.
Print Assumptions c99_rows.
(** A folder or playlist deleted: if it is below the root, the listing has no longer its lines nor those of the nodes below it, which are the lines directly behind, up to the next node that is not on a deeper level.
    All other lines are as before.  The rows of the nodes below it are still in the table. *)
Theorem c99_node : forall b io r io' ns arts trs es nd, listing_rows b io ns arts trs es -> deleted b io KPlaylistTreeNode r io' -> node_of_row r = Some nd -> distinct ns ->
  exists ns1 ns2 v v' F, ns = ns1 ++ nd :: ns2 /\ ordered ns v /\ ordered (ns1 ++ ns2) v' /\ (forall y, node_lines es arts trs y (F y)) /\ lists b io ns v F /\ lists b io' (ns1 ++ ns2) v' F /\
    ((~ In nd (map snd v) /\ v' = v) \/
     exists v1 k below v2, v = v1 ++ (k, nd) :: below ++ v2 /\ v' = v1 ++ v2 /\ Forall (fun y => (k < fst y)%nat) below /\ match v2 with [] => True | y :: _ => (fst y <= k)%nat end).
Proof.
  intros b io r io' ns arts trs es nd HL HE E D. destruct (c99_rows _ _ _ _ _ _ _ _ _ HL HE) as (H & _). destruct (H eq_refl) as (ns1 & nd0 & ns2 & -> & EO & HL'). assert (nd0 = nd) as -> by congruence.
  destruct (distinct_less _ _ _ D) as [D' HI]. destruct (ordered_visit _ D) as (v & V & O). destruct (ordered_visit _ D') as (v' & V' & O').
  exists ns1, ns2, v, v', (items es arts trs). split; [easy|]. split; [exact O|]. split; [exact O'|]. split; [apply items_lines|]. split; [now apply lists_rows|]. split; [now apply lists_rows|].
  assert (v' = cut (nd_id nd) None v) as ->.
  { pose proof (visit_cut ns1 nd ns2 HI _ _ _ _ V) as W. apply visit_stable with (d' := S (List.length (ns1 ++ nd :: ns2))) in V'; [congruence|]. rewrite !app_length. cbn [List.length]. lia. }
  destruct O as (O1 & O2 & _). apply cut_parts.
  - assert (forall l, NoDup l -> incl l (ns1 ++ nd :: ns2) -> NoDup (map nd_id l)) as HND.
    { induction l as [|n l IH]; intros N1 N2; [constructor|]. inversion N1 as [|? ? N3 N4]; subst. cbn [map]. constructor; [|apply IH; [exact N4|intros m M; apply N2; now right]]. intro I. apply in_map_iff in I as (m & EM & IM). apply N3.
      assert (In n (ns1 ++ nd :: ns2)) as IN by (apply N2; now left). assert (In m (ns1 ++ nd :: ns2)) as IM' by (apply N2; now right). apply in_split in IN as (q1 & q2 & EQ). rewrite EQ in IM', D. now rewrite <- (unique_node q1 n q2 m (proj1 D) IM' EM). }
    rewrite <- (map_map snd nd_id). apply HND; [exact O1|]. intros m M. now apply O2 in M.
  - intros y I EY. apply (unique_node ns1 nd ns2 _ (proj1 D)); [|exact EY]. apply (in_map snd) in I. now apply O2 in I.
Qed.
Print Assumptions c99_node.
(** The entry with number [x] of playlist [id] deleted, the only one with this number there: the line of the entry is gone; all else is as before. *)
Theorem c99_entry : forall b io r io' ns arts trs es x t id, listing_rows b io ns arts trs es -> deleted b io KPlaylistEntry r io' -> pentry_of_row r = Some (mk_pentry x t id) ->
  distinct ns -> (exists es1 es2, es = es1 ++ mk_pentry x t id :: es2 /\ Forall (fun e => ~ (pe_playlist e = id /\ pe_index e = x)) (es1 ++ es2)) ->
  exists v F F', ordered ns v /\ (forall y, node_lines es arts trs y (F y)) /\ lists b io ns v F /\ lists b io' ns v F' /\
    (forall y, nd_id (snd y) <> id -> F' y = F y) /\
    (forall y, nd_id (snd y) = id -> exists ps1 ps2 first ls1 it ls2, F y = first :: ls1 ++ it :: ls2 /\ F' y = first :: ls1 ++ ls2 /\ track_line arts trs (fst y) x t it /\
       Forall2 (fun p it => track_line arts trs (fst y) (fst p) (snd p) it) ps1 ls1 /\ Forall (fun p => fst p < x) ps1 /\
       Forall2 (fun p it => track_line arts trs (fst y) (fst p) (snd p) it) ps2 ls2 /\ Forall (fun p => x < fst p) ps2).
Proof.
  intros b io r io' ns arts trs es x t id HL HE E D (fs1 & fs2 & EF & HF). destruct (c99_rows _ _ _ _ _ _ _ _ _ HL HE) as (_ & _ & _ & H). destruct (H eq_refl) as (es1 & old & es2 & -> & EO & HL').
  assert (old = mk_pentry x t id) as -> by congruence. clear EO. apply only_place with (P := fun e => pe_playlist e = id /\ pe_index e = x) in EF as [<- <-]; [|easy|exact HF].
  destruct (ordered_visit _ D) as (v & V & O). exists v, (items (es1 ++ mk_pentry x t id :: es2) arts trs), (items (es1 ++ es2) arts trs).
  split; [exact O|]. split; [apply items_lines|]. split; [now apply lists_rows|]. split; [now apply lists_rows|]. split.
  - intros y NE. symmetry. apply items_eq. apply lines_other; [exact NE|apply items_lines].
  - intros [k n] EN. cbn [fst snd] in *. destruct (lines_insert es1 es2 x id arts trs k n HF EN) as (ps1 & ps2 & ls1 & ls2 & P1 & P2 & L1 & L2 & N1 & NT). destruct (NT t) as (it & LI & N2).
    exists ps1, ps2. eexists. exists ls1, it, ls2. split; [exact (items_eq _ _ _ _ _ N2)|]. split; [exact (items_eq _ _ _ _ _ N1)|]. easy.
Qed.
Print Assumptions c99_entry.
(** The only track with its id deleted: its entries stay, their lines say that there is no such track; all else is as before. *)
Theorem c99_track : forall b io r io' ns arts trs es t a title, listing_rows b io ns arts trs es -> deleted b io KTrack r io' -> listed_track_of_row r = Some (t, (a, title)) ->
  distinct ns -> NoDup (map fst trs) ->
  exists l1 l2 v F F', trs = l1 ++ (t, (a, title)) :: l2 /\ ordered ns v /\ (forall y, node_lines es arts trs y (F y)) /\ (forall y, node_lines es arts (l1 ++ l2) y (F' y)) /\ lists b io ns v F /\ lists b io' ns v F' /\
    forall y, exists first ls ls', F y = first :: ls /\ F' y = first :: ls' /\
      Forall2 (fun it it' => it' = it \/ exists x, titled arts (fst y) x a title it /\ it' = ([], LTrack (fst y) x (TMissing t))) ls ls'.
Proof.
  intros b io r io' ns arts trs es t a title HL HE E D ND. destruct (c99_rows _ _ _ _ _ _ _ _ _ HL HE) as (_ & _ & H & _). destruct (H eq_refl) as (l1 & old & l2 & -> & EO & HL').
  assert (old = (t, (a, title))) as -> by congruence. clear EO. rewrite map_app in ND. cbn [map fst] in ND. apply NoDup_remove_2 in ND. rewrite <- map_app in ND.
  destruct (ordered_visit _ D) as (v & V & O). exists l1, l2, v, (items es arts (l1 ++ (t, (a, title)) :: l2)), (items es arts (l1 ++ l2)).
  split; [easy|]. split; [exact O|]. split; [apply items_lines|]. split; [apply items_lines|]. split; [now apply lists_rows|]. split; [now apply lists_rows|].
  intros [k n]. eexists _, _, _. split; [reflexivity|]. split; [reflexivity|]. cbn [fst]. induction (match mm_get (entries_map es) (nd_id (snd (k, n))) with Some l => l | None => [] end) as [|[x u] ps IH]; [constructor|].
  cbn [map fst snd]. constructor; [|exact IH]. unfold track_item. rewrite (get_insert l1 l2 t (a, title) u ND). destruct (N.eqb_spec u t) as [->|NE]; [right|now left]. exists x. rewrite (proj2 (insert_all_none (l1 ++ l2) t) ND). split; [|easy].
  destruct (mm_get (insert_all arts) a) as [name|] eqn:EA; [apply titled_by; now apply insert_all_get|apply titled_unknown; now apply insert_all_none].
Qed.
Print Assumptions c99_track.
(** The only artist with its id deleted: the lines of its tracks say the title and that there is no such artist; all else is as before. *)
Theorem c99_artist : forall b io r io' ns arts trs es a name, listing_rows b io ns arts trs es -> deleted b io KArtist r io' -> artist_of_row r = Some (a, name) ->
  distinct ns -> NoDup (map fst arts) ->
  exists l1 l2 v F F', arts = l1 ++ (a, name) :: l2 /\ ordered ns v /\ (forall y, node_lines es arts trs y (F y)) /\ (forall y, node_lines es (l1 ++ l2) trs y (F' y)) /\ lists b io ns v F /\ lists b io' ns v F' /\
    forall y, exists first ls ls', F y = first :: ls /\ F' y = first :: ls' /\
      Forall2 (fun it it' => it' = it \/ exists x title, it = ([name; title], LTrack (fst y) x (TFound name title)) /\ it' = ([title], LTrack (fst y) x (TNoArtist a title))) ls ls'.
Proof.
  intros b io r io' ns arts trs es a name HL HE E D ND. destruct (c99_rows _ _ _ _ _ _ _ _ _ HL HE) as (_ & H & _). destruct (H eq_refl) as (l1 & old & l2 & -> & EO & HL').
  assert (old = (a, name)) as -> by congruence. clear EO. rewrite map_app in ND. cbn [map fst] in ND. apply NoDup_remove_2 in ND. rewrite <- map_app in ND.
  destruct (ordered_visit _ D) as (v & V & O). exists l1, l2, v, (items es (l1 ++ (a, name) :: l2) trs), (items es (l1 ++ l2) trs).
  split; [easy|]. split; [exact O|]. split; [apply items_lines|]. split; [apply items_lines|]. split; [now apply lists_rows|]. split; [now apply lists_rows|].
  intros [k n]. eexists _, _, _. split; [reflexivity|]. split; [reflexivity|]. cbn [fst]. induction (match mm_get (entries_map es) (nd_id (snd (k, n))) with Some l => l | None => [] end) as [|[x u] ps IH]; [constructor|].
  cbn [map fst snd]. constructor; [|exact IH]. unfold track_item. destruct (mm_get (insert_all trs) u) as [[a0 ti]|]; [|now left]. rewrite (get_insert l1 l2 a name a0 ND). destruct (N.eqb_spec a0 a) as [->|NE]; [right|now left]. exists x, ti.
  now rewrite (proj2 (insert_all_none (l1 ++ l2) a) ND).
Qed.
Print Assumptions c99_artist.

(** ** The export *)
(** What the next export is made of *)
Theorem c99_exported : forall b io kd r io' ns es tr, export_rows b io ns es tr -> deleted b io kd r io' ->
  (kd = KPlaylistTreeNode -> exists ns1 nd ns2, ns = ns1 ++ nd :: ns2 /\ node_of_row r = Some nd /\ export_rows b io' (ns1 ++ ns2) es tr) /\
  (kd = KArtist -> export_rows b io' ns es tr) /\
  (kd = KTrack -> exists l1 t s p l2, tr = l1 ++ (t, p) :: l2 /\ track_of_row r = Some (t, s) /\ dstr_into_string s = inl p /\ export_rows b io' ns es (l1 ++ l2)) /\
  (kd = KPlaylistEntry -> exists l1 e l2, es = l1 ++ e :: l2 /\ pentry_of_row r = Some e /\ export_rows b io' ns (l1 ++ l2) tr).
Proof.
  intros b io kd r io' ns es tr (d & rn & re & rt & raw & HB & HO & Tn & Fn & Te & Fe & Tt & Ft & FD) HE.
  destruct (deleted_tables b io kd r io' d HO HE) as (d' & O' & _ & B' & HN & HY). destruct listed_all as (I1 & I2 & I3 & I4).
  split; [|split; [|split]]; intros ->.
  - destruct (HY rn I1 Tn) as (R1 & R2 & rn' & F1 & F2 & Tn'). destruct (same_less node_of_row R1 r R2 rn rn' ns same_node F1 F2 Fn) as (ns1 & old & ns2 & EN & EO & Fn').
    destruct (HN KTrack rt I3) as (mt & rt' & T1 & T2 & Tt'); [easy|easy|]. destruct (HN KPlaylistEntry re I4) as (me & re' & E1 & E2 & Te'); [easy|easy|].
    exists ns1, old, ns2. split; [easy|]. split; [easy|]. exists d', rn', re', rt', raw. do 5 (split; [easy|]). split; [exact (same_both _ _ _ _ _ same_pentry E1 E2 Fe)|]. split; [easy|]. split; [exact (same_both _ _ _ _ _ same_track T1 T2 Ft)|easy].
  - destruct (HN KPlaylistTreeNode rn I1) as (mn & rn' & N1 & N2 & Tn'); [easy|easy|]. destruct (HN KTrack rt I3) as (mt & rt' & T1 & T2 & Tt'); [easy|easy|]. destruct (HN KPlaylistEntry re I4) as (me & re' & E1 & E2 & Te'); [easy|easy|].
    exists d', rn', re', rt', raw. do 3 (split; [easy|]). split; [exact (same_both _ _ _ _ _ same_node N1 N2 Fn)|]. split; [easy|]. split; [exact (same_both _ _ _ _ _ same_pentry E1 E2 Fe)|]. split; [easy|]. split; [exact (same_both _ _ _ _ _ same_track T1 T2 Ft)|easy].
  - destruct (HY rt I3 Tt) as (R1 & R2 & rt' & F1 & F2 & Tt'). destruct (same_less track_of_row R1 r R2 rt rt' raw same_track F1 F2 Ft) as (w1 & [t s] & w2 & -> & EO & Ft').
    destruct (HN KPlaylistTreeNode rn I1) as (mn & rn' & N1 & N2 & Tn'); [easy|easy|]. destruct (HN KPlaylistEntry re I4) as (me & re' & E1 & E2 & Te'); [easy|easy|].
    apply Forall2_app_inv_l in FD as (l1 & l2' & D1 & D2 & ->). inversion D2 as [|? [t1 p] ? l2 [EX1 EX2] D3]; subst. cbn [fst snd] in *. subst t1. exists l1, t, s, p, l2. do 3 (split; [easy|]).
    exists d', rn', re', rt', (w1 ++ w2). do 3 (split; [easy|]). split; [exact (same_both _ _ _ _ _ same_node N1 N2 Fn)|]. split; [easy|]. split; [exact (same_both _ _ _ _ _ same_pentry E1 E2 Fe)|]. split; [easy|]. split; [easy|].
    now apply Forall2_app.
  - destruct (HY re I4 Te) as (R1 & R2 & re' & F1 & F2 & Te'). destruct (same_less pentry_of_row R1 r R2 re re' es same_pentry F1 F2 Fe) as (l1 & old & l2 & EN & EO & Fe').
    destruct (HN KPlaylistTreeNode rn I1) as (mn & rn' & N1 & N2 & Tn'); [easy|easy|]. destruct (HN KTrack rt I3) as (mt & rt' & T1 & T2 & Tt'); [easy|easy|].
    exists l1, old, l2. split; [easy|]. split; [easy|]. exists d', rn', re', rt', raw. do 3 (split; [easy|]). split; [exact (same_both _ _ _ _ _ same_node N1 N2 Fn)|]. do 3 (split; [easy|]). split; [exact (same_both _ _ _ _ _ same_track T1 T2 Ft)|easy].
Qed.
Print Assumptions c99_exported.
(** A folder or playlist deleted: the export makes the same files with the same contents at the same places, without this file, or without this folder and all that is below it.
    If it was a playlist, exactly this playlist is missing. *)
Theorem c99_export_node : forall b io r io' ns es tr nd, export_rows b io ns es tr -> deleted b io KPlaylistTreeNode r io' -> node_of_row r = Some nd -> NoDup (map nd_id ns) ->
  forall depth out canon ts, playlist_tree depth ns = Some (Done ts) ->
  exists c, (forall id, playlist_text canon es tr id (c id)) /\ exports b io depth out canon ts c /\ exports b io' depth out canon (flat_map (pruned (nd_id nd)) ts) c /\
    (nd_folder nd = false -> flat_map (playlists []) (flat_map (pruned (nd_id nd)) ts) = filter (fun y => negb (snd (fst y) =? nd_id nd)) (flat_map (playlists []) ts)).
Proof.
  intros b io r io' ns es tr nd HX HE E ND depth out canon ts PT. destruct (c99_exported _ _ _ _ _ _ _ _ HX HE) as (H & _). destruct (H eq_refl) as (ns1 & old & ns2 & -> & EO & HX').
  assert (old = nd) as -> by congruence. exists (content canon (entries_map es) (tracks_map tr)). split; [intro; apply content_text|]. split; [exact (exports_rows _ _ _ _ _ _ _ _ _ HX PT)|]. split.
  - apply (exports_rows _ _ (ns1 ++ ns2)); [exact HX'|]. unfold playlist_tree in *. apply child_pruned; [|exact PT]. rewrite map_app in ND. cbn [map] in ND. apply NoDup_remove_2 in ND. rewrite <- map_app in ND.
    apply Forall_forall. intros m M EM. apply ND. rewrite <- EM. now apply in_map.
  - intro NF. unfold playlist_tree in PT. apply child_no_folder with (i := nd_id nd) in PT.
    + clear -PT. induction PT as [|t ts H _ IH]; [easy|]. cbn [flat_map]. rewrite flat_map_app, filter_app, IH. now rewrite pruned_playlists.
    + apply Forall_forall. intros m M EM. now rewrite (unique_node ns1 nd ns2 m ND M EM).
Qed.
Print Assumptions c99_export_node.
(** An entry deleted: only the file of its playlist is another; the line of the entry is missing (if there was a track, there was one). *)
Theorem c99_export_entry : forall b io r io' ns es tr x t id, export_rows b io ns es tr -> deleted b io KPlaylistEntry r io' -> pentry_of_row r = Some (mk_pentry x t id) ->
  (exists es1 es2, es = es1 ++ mk_pentry x t id :: es2 /\ Forall (fun e => ~ (pe_playlist e = id /\ pe_index e = x)) (es1 ++ es2)) ->
  forall depth out canon ts, playlist_tree depth ns = Some (Done ts) ->
  exists c c', (forall id, playlist_text canon es tr id (c id)) /\ exports b io depth out canon ts c /\ exports b io' depth out canon ts c' /\ (forall id', id' <> id -> c' id' = c id') /\
    exists ps1 ps2 ls1 old ls2, c id = flat_map (fun l => l ++ [10]) (ls1 ++ old ++ ls2) /\ c' id = flat_map (fun l => l ++ [10]) (ls1 ++ ls2) /\
      listed canon tr ps1 ls1 /\ listed canon tr [(x, t)] old /\ listed canon tr ps2 ls2 /\ Forall (fun y => fst y < x) ps1 /\ Forall (fun y => x < fst y) ps2.
Proof.
  intros b io r io' ns es tr x t id HX HE E (fs1 & fs2 & EF & HF) depth out canon ts PT. destruct (c99_exported _ _ _ _ _ _ _ _ HX HE) as (_ & _ & _ & H). destruct (H eq_refl) as (es1 & old & es2 & -> & EO & HX').
  assert (old = mk_pentry x t id) as -> by congruence. clear EO. apply only_place with (P := fun e => pe_playlist e = id /\ pe_index e = x) in EF as [<- <-]; [|easy|exact HF].
  exists (content canon (entries_map (es1 ++ mk_pentry x t id :: es2)) (tracks_map tr)), (content canon (entries_map (es1 ++ es2)) (tracks_map tr)).
  split; [intro; apply content_text|]. split; [exact (exports_rows _ _ _ _ _ _ _ _ _ HX PT)|]. split; [exact (exports_rows _ _ _ _ _ _ _ _ _ HX' PT)|]. split; [intros id' NE; now rewrite content_others|].
  destruct (content_insert canon es1 es2 x t id tr HF) as (ps1 & ps2 & ls1 & o & ls2 & _ & _ & P1 & P2 & L1 & LO & L2 & C & C'). now exists ps1, ps2, ls1, o, ls2.
Qed.
Print Assumptions c99_export_entry.
(** The only track with its id deleted: its lines are missing in all files, without a word; all other lines are as before, and files without such a line are the same. *)
Theorem c99_export_track : forall b io r io' ns es tr t s, export_rows b io ns es tr -> deleted b io KTrack r io' -> track_of_row r = Some (t, s) -> NoDup (map fst tr) ->
  forall depth out canon ts, playlist_tree depth ns = Some (Done ts) ->
  exists l1 p l2 c c', tr = l1 ++ (t, p) :: l2 /\ dstr_into_string s = inl p /\ (forall id, playlist_text canon es tr id (c id)) /\ (forall id, playlist_text canon es (l1 ++ l2) id (c' id)) /\
    exports b io depth out canon ts c /\ exports b io' depth out canon ts c' /\
    forall id, exists ls ls', c id = flat_map (fun l => l ++ [10]) ls /\ c' id = flat_map (fun l => l ++ [10]) ls' /\
      woven (fun l => l = display (join canon (unrooted (utf8_enc p)))) ls' ls /\
      ((forall x, ~ last_of (fun e => pe_playlist e = id /\ pe_index e = x) es (mk_pentry x t id)) -> c' id = c id).
Proof.
  intros b io r io' ns es tr t s HX HE E ND depth out canon ts PT. destruct (c99_exported _ _ _ _ _ _ _ _ HX HE) as (_ & _ & H & _). destruct (H eq_refl) as (l1 & t0 & s0 & p & l2 & -> & EO & EP & HX').
  rewrite E in EO. injection EO as <- <-. rewrite map_app in ND. cbn [map fst] in ND. apply NoDup_remove_2 in ND. rewrite <- map_app in ND.
  exists l1, p, l2, (content canon (entries_map es) (tracks_map (l1 ++ (t, p) :: l2))), (content canon (entries_map es) (tracks_map (l1 ++ l2))).
  split; [easy|]. split; [easy|]. split; [intro; apply content_text|]. split; [intro; apply content_text|]. split; [exact (exports_rows _ _ _ _ _ _ _ _ _ HX PT)|]. split; [exact (exports_rows _ _ _ _ _ _ _ _ _ HX' PT)|].
  intro id. destruct (content_text canon es (l1 ++ (t, p) :: l2) id) as (ps & ls & EC & S & HP & HL). destruct (listed_drop canon l1 l2 t p ps ls ND HL) as (ls' & HL' & HK & HF).
  assert (content canon (entries_map es) (tracks_map (l1 ++ l2)) id = flat_map (fun l => l ++ [10]) ls') as EC'.
  { apply (text_fun canon es (l1 ++ l2) id); [|apply content_text]. now exists ps, ls'. }
  exists ls, ls'. split; [exact EC|]. split; [exact EC'|]. split; [exact HF|]. intro N. rewrite EC, EC', HK; [easy|]. intros x I. apply (N x). now apply HP.
Qed.
Print Assumptions c99_export_track.
(** Artists make no difference. *)
Theorem c99_export_same : forall b io r io' ns es tr, export_rows b io ns es tr -> deleted b io KArtist r io' -> forall depth out canon ts, playlist_tree depth ns = Some (Done ts) ->
  exists c, (forall id, playlist_text canon es tr id (c id)) /\ exports b io depth out canon ts c /\ exports b io' depth out canon ts c.
Proof.
  intros b io r io' ns es tr HX HE depth out canon ts PT. exists (content canon (entries_map es) (tracks_map tr)). split; [intro; apply content_text|]. split; [exact (exports_rows _ _ _ _ _ _ _ _ _ HX PT)|].
  apply (exports_rows _ _ ns); [|exact PT]. destruct (c99_exported _ _ _ _ _ _ _ _ HX HE) as (_ & H & _). now apply H.
Qed.
Print Assumptions c99_export_same.
(** A row that was inserted as in C94 and is then deleted: the listing is the one before, for rows of all four tables, if the table had no row with the same values. *)
Lemma only_one {X} (x : X) l1 l2 m1 m2 : ~ In x (l1 ++ l2) -> l1 ++ x :: l2 = m1 ++ x :: m2 -> m1 = l1 /\ m2 = l2.
Proof. intros NI EQ. symmetry in EQ. apply only_place with (P := fun y => y = x) in EQ as [-> ->]; [easy|easy|]. apply Forall_forall. intros y I ->. now apply NI. Qed.
Lemma listing_same b io io' ns arts trs es : listing_rows b io ns arts trs es -> listing_rows b io' ns arts trs es -> forall depth, list_playlists b depth io' = list_playlists b depth io.
Proof.
  assert (forall io, listing_rows b io ns arts trs es -> forall depth, list_playlists b depth io = option_map Done (print_children depth (by_parent ns) (entries_map es) (insert_all arts) (insert_all trs) 0 0)) as H.
  { clear io io'. intros io (d & rn & ra & rt & re & HB & HO & Tn & Fn & Ta & Fa & Tt & Ft & Te & Fe). destruct (list_rows b io d HB HO) as [_ H]. destruct (H rn ra rt re Tn Ta Tt Te) as (ns' & arts' & trs' & es' & F1 & F2 & F3 & F4 & E).
    rewrite (forall2_some _ _ _ _ Fn F1), (forall2_some _ _ _ _ Fa F2), (forall2_some _ _ _ _ Ft F3), (forall2_some _ _ _ _ Fe F4) in E. exact E. }
  intros H1 H2 depth. now rewrite (H _ H1), (H _ H2).
Qed.
Theorem c99_undone : forall b io kd r io1 io2 ns arts trs es, listing_rows b io ns arts trs es -> inserted b io kd r io1 -> deleted b io1 kd r io2 ->
  kd = KPlaylistTreeNode /\ (exists nd, node_of_row r = Some nd /\ ~ In nd ns) \/ kd = KArtist /\ (exists a, artist_of_row r = Some a /\ ~ In a arts) \/
  kd = KTrack /\ (exists t, listed_track_of_row r = Some t /\ ~ In t trs) \/ kd = KPlaylistEntry /\ (exists e, pentry_of_row r = Some e /\ ~ In e es) ->
  forall depth, list_playlists b depth io2 = list_playlists b depth io.
Proof.
  intros b io kd r io1 io2 ns arts trs es HL HI HD HK. apply (listing_same b io io2 ns arts trs es HL). destruct (c94_rows _ _ _ _ _ _ _ _ _ HL HI) as (H1 & H2 & H3 & H4).
  destruct HK as [(K & x & E & NI)|[(K & x & E & NI)|[(K & x & E & NI)|(K & x & E & NI)]]].
  - destruct (H1 x K E) as (l1 & l2 & -> & L1). destruct (c99_rows _ _ _ _ _ _ _ _ _ L1 HD) as (D1 & _). destruct (D1 K) as (m1 & y & m2 & EQ & EY & L2). assert (y = x) as -> by congruence. now destruct (only_one _ _ _ _ _ NI EQ) as [-> ->].
  - destruct (H2 x K E) as (l1 & l2 & -> & L1). destruct (c99_rows _ _ _ _ _ _ _ _ _ L1 HD) as (_ & D1 & _). destruct (D1 K) as (m1 & y & m2 & EQ & EY & L2). assert (y = x) as -> by congruence. now destruct (only_one _ _ _ _ _ NI EQ) as [-> ->].
  - destruct (H3 x K E) as (l1 & l2 & -> & L1). destruct (c99_rows _ _ _ _ _ _ _ _ _ L1 HD) as (_ & _ & D1 & _). destruct (D1 K) as (m1 & y & m2 & EQ & EY & L2). assert (y = x) as -> by congruence. now destruct (only_one _ _ _ _ _ NI EQ) as [-> ->].
  - destruct (H4 x K E) as (l1 & l2 & -> & L1). destruct (c99_rows _ _ _ _ _ _ _ _ _ L1 HD) as (_ & _ & _ & D1). destruct (D1 K) as (m1 & y & m2 & EQ & EY & L2). assert (y = x) as -> by congruence. now destruct (only_one _ _ _ _ _ NI EQ) as [-> ->].
Qed.
Print Assumptions c99_undone.
(** What [deleted] asks of the file can be computed, as in C94. *)
Theorem c99_checked : forall b io d kd r j s l a z io', bytes_ok io -> len io < 2 ^ 64 - 1 -> db_open io DbPlain = DOk d -> 28 + 16 * len (dh_tables (db_header d)) <= dh_page_size (db_header d) ->
  (forall kd', In kd' listed_tables -> table_list b d kd' <> None) -> table_list b d kd = Some l -> In j l -> survey b d j = Some s -> survey_grade b d j <> GAny ->
  sh_rows s = a ++ r :: z -> program b DbPlain io [ADelete j (len a)] io' -> deleted b io kd r io'.
Proof.
  intros b io d kd r j s l a z io' HB HL HO HH HT EL II ES EG ER HP. exists d, (survey_grade b d), (survey b d), j, s, a, z. split; [exact HO|].
  split; [apply (open_stores b io DbPlain); try easy; intros i t; now apply (survey_good b DbPlain io)|]. split; [|easy].
  assert (forall kd' l', table_list b d kd' = Some l' -> In j l' -> sh_type s = PT kd') as TY.
  { intros kd' l' E I. apply (c92_list b DbPlain io d kd' l' HB HL HO) in E as (_ & _ & _ & _ & H). destruct (H j I) as (p & CP & TP). unfold survey in ES. rewrite CP in ES. cbn [option_map] in ES. injection ES as <-. exact TP. }
  intros kd' I. destruct (table_list b d kd') as [l'|] eqn:E'; [|now destruct (HT kd' I)]. exists l'. split.
  - apply (c92_list b DbPlain io d kd' l' HB HL HO) in E' as (j' & tb' & FT' & HP' & _). now exists j', tb'.
  - split; [|intros ->; congruence]. intro I'. pose proof (TY _ _ E' I') as T1. pose proof (TY _ _ EL II) as T2. congruence.
Qed.
Print Assumptions c99_checked.

(** ** Example: the folder, an entry, a track and the artist, each deleted from the database of C94 *)
Definition c99_run (j i : N) : list N :=
  match delete_row Debug i (c95_page j) with Ok p => match flush Debug (set_page (fst (load_page Debug c94_open j)) j p) with DOk d => db_io d | _ => [] end | _ => [] end.
Definition c99_folder_io : list N := Eval vm_compute in c99_run 1 1.
Definition c99_entry_io : list N := Eval vm_compute in c99_run 2 0.
Definition c99_track_io : list N := Eval vm_compute in c99_run 3 0.
Definition c99_artist_io : list N := Eval vm_compute in c99_run 4 0.
Lemma c99_does b k io d j i d1 p q d2 : db_open io k = DOk d -> load_page b d j = (d1, DOk p) -> delete_row b i p = Ok q -> flush b (set_page d1 j q) = DOk d2 -> program b k io [ADelete j i] (db_io d2).
Proof. intros HO EP EQ EF. exists d, (set_page d1 j q), d2. split; [exact HO|]. split; [|now split]. eapply acts_cons; [exact (does_delete _ _ _ _ _ _ _ EP EQ)|]. apply acts_nil. Qed.
Lemma c99_deleted kd j i l q : table_list Debug c94_open kd = Some l -> In j l ->
  match survey Debug c94_open j with Some s => nth_error (sh_rows s) i = Some (c95_row j i) | None => False end -> survey_grade Debug c94_open j <> GAny ->
  match load_page Debug c94_open j with (_, DOk _) => True | _ => False end -> delete_row Debug (N.of_nat i) (c95_page j) = Ok q ->
  match flush Debug (set_page (fst (load_page Debug c94_open j)) j q) with DOk _ => True | _ => False end -> deleted Debug c94_io kd (c95_row j i) (c99_run j (N.of_nat i)).
Proof.
  intros HT II HN HG HLP HQ HFL. destruct (survey Debug c94_open j) as [s|] eqn:ES; [|easy]. apply nth_error_split in HN as (a & z & ER & EL).
  assert (len c94_io < 2 ^ 64 - 1) as HLEN by (vm_compute; reflexivity). assert (N.of_nat i = len a) as EI by (unfold len; now rewrite EL). rewrite EI in *.
  apply (c99_checked Debug c94_io c94_open kd _ j s l a z); [exact c94_bytes|exact HLEN|exact c94_opens|vm_compute; discriminate| |exact HT|exact II|exact ES|exact HG|exact ER|].
  - intros kd' [<-|[<-|[<-|[<-|[]]]]]; vm_compute; discriminate.
  - unfold c99_run. rewrite HQ. revert HLP HQ HFL. unfold c95_page. destruct (load_page Debug c94_open j) as [d1 [p| |]] eqn:EP; [|easy|easy]. cbn [fst]. intros _ HQ HFL.
    destruct (flush Debug (set_page d1 j q)) as [d2| |] eqn:EF; [|easy|easy]. exact (c99_does Debug DbPlain c94_io c94_open j (len a) d1 p q d2 c94_opens EP HQ EF).
Qed.
Lemma c99_runs1 : c99_run 1 1 = c99_folder_io.
Proof. vm_compute. reflexivity. Qed.
Lemma c99_runs2 : c99_run 2 0 = c99_entry_io.
Proof. vm_compute. reflexivity. Qed.
Lemma c99_runs3 : c99_run 3 0 = c99_track_io.
Proof. vm_compute. reflexivity. Qed.
Lemma c99_runs4 : c99_run 4 0 = c99_artist_io.
Proof. vm_compute. reflexivity. Qed.
Example c99_example :
  deleted Debug c94_io KPlaylistTreeNode (c95_row 1 1) c99_folder_io /\ deleted Debug c94_io KPlaylistEntry (c95_row 2 0) c99_entry_io /\
  deleted Debug c94_io KTrack (c95_row 3 0) c99_track_io /\ deleted Debug c94_io KArtist (c95_row 4 0) c99_artist_io.
Proof.
  rewrite <- c99_runs1, <- c99_runs2, <- c99_runs3, <- c99_runs4. split; [|split; [|split]].
  - eapply (c99_deleted KPlaylistTreeNode 1 1%nat [1]); [vm_compute; reflexivity|now left|vm_compute; reflexivity|vm_compute; discriminate|vm_compute; exact I|vm_compute; reflexivity|vm_compute; exact I].
  - eapply (c99_deleted KPlaylistEntry 2 0%nat [2]); [vm_compute; reflexivity|now left|vm_compute; reflexivity|vm_compute; discriminate|vm_compute; exact I|vm_compute; reflexivity|vm_compute; exact I].
  - eapply (c99_deleted KTrack 3 0%nat [3]); [vm_compute; reflexivity|now left|vm_compute; reflexivity|vm_compute; discriminate|vm_compute; exact I|vm_compute; reflexivity|vm_compute; exact I].
  - eapply (c99_deleted KArtist 4 0%nat [4]); [vm_compute; reflexivity|now left|vm_compute; reflexivity|vm_compute; discriminate|vm_compute; exact I|vm_compute; reflexivity|vm_compute; exact I].
Qed.
Example c99_values : node_of_row (c95_row 1 1) = Some (mk_node 0 2 1 (DSShort (bytes_of "Sets"))) /\ pentry_of_row (c95_row 2 0) = Some (mk_pentry 1 41 5) /\
  listed_track_of_row (c95_row 3 0) = Some (40, (7, DSShort (bytes_of "One"))) /\ artist_of_row (c95_row 4 0) = Some (7, DSShort (bytes_of "Ann")).
Proof. repeat split; vm_compute; reflexivity. Qed.
(** With the folder goes the playlist in it; without the track its entry says so; without the artist the title is left. *)
Example c99_listings :
  let deep := LNode 1 false (DSShort (bytes_of "Deep")) in let sets := LNode 0 true (DSShort (bytes_of "Sets")) in let mix := LNode 0 false (DSShort (bytes_of "Mix")) in
  let one := LTrack 1 7 (TFound (DSShort (bytes_of "Ann")) (DSShort (bytes_of "One"))) in let two := LTrack 1 1 (TNoArtist 8 (DSShort (bytes_of "Two"))) in
  list_playlists Debug 4 c99_folder_io = Some (Done ([mix; LTrack 0 1 (TMissing 42)], false)) /\
  list_playlists Debug 4 c99_entry_io = Some (Done ([sets; deep; one; mix; LTrack 0 1 (TMissing 42)], false)) /\
  list_playlists Debug 4 c99_track_io = Some (Done ([sets; deep; two; LTrack 1 7 (TMissing 40); mix; LTrack 0 1 (TMissing 42)], false)) /\
  list_playlists Debug 4 c99_artist_io = Some (Done ([sets; deep; two; LTrack 1 7 (TNoArtist 7 (DSShort (bytes_of "One"))); mix; LTrack 0 1 (TMissing 42)], false)).
Proof. cbv zeta. split; [vm_compute; reflexivity|]. split; [vm_compute; reflexivity|]. split; vm_compute; reflexivity. Qed.
Example c99_exports :
  let out (p n : string) (ls : list string) := [MkDirs (bytes_of p); WriteFile (bytes_of n) (flat_map (fun l => bytes_of l ++ [10]) ls)] in
  let mix := out "o"%string "o/Mix.m3u"%string []%string in
  c95_export c99_folder_io = Some (Done mix) /\
  c95_export c99_entry_io = Some (Done (out "o/Sets"%string "o/Sets/Deep.m3u"%string ["/m/a.mp3"]%string ++ mix)) /\
  c95_export c99_track_io = Some (Done (out "o/Sets"%string "o/Sets/Deep.m3u"%string ["/m/b.mp3"]%string ++ mix)) /\
  c95_export c99_artist_io = Some (Done (out "o/Sets"%string "o/Sets/Deep.m3u"%string ["/m/b.mp3"; "/m/a.mp3"]%string ++ mix)).
Proof. cbv zeta. split; [vm_compute; reflexivity|]. split; [vm_compute; reflexivity|]. split; vm_compute; reflexivity. Qed.
Example c99_pruned : flat_map (pruned 2) [PFolder 2 (bytes_of "Sets") [PPlaylist 5 (bytes_of "Deep")]; PPlaylist 3 (bytes_of "Mix")] = [PPlaylist 3 (bytes_of "Mix")] /\
  flat_map (pruned 5) [PFolder 2 (bytes_of "Sets") [PPlaylist 5 (bytes_of "Deep")]; PPlaylist 3 (bytes_of "Mix")] = [PFolder 2 (bytes_of "Sets") []; PPlaylist 3 (bytes_of "Mix")].
Proof. split; reflexivity. Qed.
(** The entry that C94 inserts in its example, deleted again *)
Definition c99_run_of (d : database) (j i : N) : list N :=
  match load_page Debug d j with
  | (d1, DOk p) => match delete_row Debug i p with Ok q => match flush Debug (set_page d1 j q) with DOk d => db_io d | _ => [] end | _ => [] end
  | _ => []
  end.
Lemma c99_program io d j i : db_open io DbPlain = DOk d -> c99_run_of d j i <> [] -> program Debug DbPlain io [ADelete j i] (c99_run_of d j i).
Proof.
  intros HO NE. unfold c99_run_of in *. destruct (load_page Debug d j) as [d1 [p| |]] eqn:EP; [|easy|easy]. destruct (delete_row Debug i p) as [q| |] eqn:EQ; [|easy|easy]. destruct (flush Debug (set_page d1 j q)) as [d2| |] eqn:EF; [|easy|easy].
  exact (c99_does Debug DbPlain io d j i d1 p q d2 HO EP EQ EF).
Qed.
Definition c99_in_io : list N := Eval vm_compute in c94_after 2 (entry_row 4 40 5).
Definition c99_in : database := mk_db c99_in_io DbPlain c94_header [None; None; None; None].
Definition c99_out_io : list N := Eval vm_compute in c99_run_of c99_in 2 3.
Lemma c99_in_is : c94_after 2 (entry_row 4 40 5) = c99_in_io.
Proof. vm_compute. reflexivity. Qed.
Lemma c99_out_is : c99_run_of c99_in 2 3 = c99_out_io.
Proof. vm_compute. reflexivity. Qed.
Lemma c99_in_opens : db_open c99_in_io DbPlain = DOk c99_in.
Proof. vm_compute. reflexivity. Qed.
Lemma c99_in_bytes : bytes_ok c99_in_io.
Proof. assert (forallb (fun x => x <? 256) c99_in_io = true) as E by (vm_compute; reflexivity). revert E. generalize c99_in_io. intros l E. rewrite forallb_forall in E. apply Forall_forall. intros x Hx. specialize (E x Hx). cbv beta in E. lia. Qed.
Example c99_undone_example : inserted Debug c94_io KPlaylistEntry (entry_row 4 40 5) c99_in_io /\ deleted Debug c99_in_io KPlaylistEntry (entry_row 4 40 5) c99_out_io.
Proof.
  split; [rewrite <- c99_in_is; exact (proj1 c94_example)|].
  assert (match survey Debug c99_in 2 with Some s => nth_error (sh_rows s) 3 = Some (entry_row 4 40 5) | None => False end) as HN by (vm_compute; reflexivity).
  destruct (survey Debug c99_in 2) as [s|] eqn:ES; [|easy]. apply nth_error_split in HN as (a & z & ER & EL). assert (len a = 3) as LA by (unfold len; now rewrite EL).
  apply (c99_checked Debug c99_in_io c99_in KPlaylistEntry _ 2 s [2] a z); [exact c99_in_bytes|vm_compute; reflexivity|exact c99_in_opens|vm_compute; discriminate| |vm_compute; reflexivity|now left|exact ES|vm_compute; discriminate|exact ER|].
  - intros kd' [<-|[<-|[<-|[<-|[]]]]]; vm_compute; discriminate.
  - rewrite LA, <- c99_out_is. apply c99_program; [exact c99_in_opens|]. vm_compute. discriminate.
Qed.
