(** * Property C95: a row changed in the database, the listing of the playlists and the export *)
From Coq Require Import NArith ZArith List Bool Lia Sorted Relations String.
From Coq Require Import ZifyBool ZifyNat ZifyN.
From Verif Require Import Base BaseFacts Segs Utf Str StrFacts StrGood Schema SchemaFacts Oa OaFacts OaSpec Rows RowFacts RowSpec Page BitFacts PageFacts PageRw PageSpec Alloc AllocFacts AllocSpec
  Db DbFacts DbFlush DbFresh RowShape Reread Progress Insert Session Revise Dump DumpFacts Setting Device DeviceFacts DeviceTree Cli CliFacts CliList Listing Compose Graft ComposeList ComposeEdit Check
  PropListing PropCompose PropGraft PropSession PropRevise PropString PropCheck PropComposeList.
Import ListNotations.
Local Close Scope string_scope.
Open Scope N_scope.

(** ** Vocabulary *)
(** A program opens the file, loads a page of table [kd], changes row [r] of it by [f] (the new row takes no more room, as in C84) and saves. *)
Definition edited (b : build) (io : list N) (kd : rkind) (r : row) (f : change) (io' : list N) : Prop :=
  exists d G A j s a z, db_open io DbPlain = DOk d /\ stores b d G A /\
    (forall kd', In kd' listed_tables -> exists l, chain A (db_header d) kd' l /\ (In j l <-> kd' = kd)) /\
    A j = Some s /\ G j <> GAny /\ sh_rows s = a ++ r :: z /\ r <> RUnknown /\ modest b f r /\
    program b DbPlain io [AAssign j (only (len a) f)] io'.
(** The rows of the three tables the export is made of, the paths of the tracks decoded *)
Definition export_rows (b : build) (io : list N) (ns : list node) (es : list pentry) (tr : list (N * list N)) : Prop :=
  exists d rn re rt raw, bytes_ok io /\ db_open io DbPlain = DOk d /\
    table_in b DbPlain (db_header d) io KPlaylistTreeNode (DOk rn) /\ Forall2 (fun r x => node_of_row r = Some x) rn ns /\
    table_in b DbPlain (db_header d) io KPlaylistEntry (DOk re) /\ Forall2 (fun r x => pentry_of_row r = Some x) re es /\
    table_in b DbPlain (db_header d) io KTrack (DOk rt) /\ Forall2 (fun r x => track_of_row r = Some x) rt raw /\
    Forall2 (fun x y => fst x = fst y /\ dstr_into_string (snd x) = inl (snd y)) raw tr.
(** The operations of the export: for the tree [ts], with the files [c] *)
Definition exports (b : build) (io : list N) (depth : nat) (out canon : Cli.path) (ts : list pnode) (c : N -> list N) : Prop :=
  exists d, db_open io DbPlain = DOk d /\ export b depth d out canon = Some (Done (flat_map (fun t => walk c t out) ts)).

(** ** Lemmas *)
Lemma edited_tables b io kd r f io' d : db_open io DbPlain = DOk d -> edited b io kd r f io' ->
  exists d', db_open io' DbPlain = DOk d' /\ bytes_ok io /\ bytes_ok io' /\
    (forall kd' rows, In kd' listed_tables -> kd' <> kd -> table_in b DbPlain (db_header d) io kd' (DOk rows) ->
       exists mid rows', Forall2 same_values mid rows /\ Forall2 same_values mid rows' /\ table_in b DbPlain (db_header d') io' kd' (DOk rows')) /\
    (forall rows, In kd listed_tables -> table_in b DbPlain (db_header d) io kd (DOk rows) ->
       exists R1 R2 rows', Forall2 same_values (R1 ++ r :: R2) rows /\ Forall2 same_values (R1 ++ changed f r :: R2) rows' /\ table_in b DbPlain (db_header d') io' kd (DOk rows')).
Proof.
  intros HO (d0 & G & A & j & s & a & z & HO0 & HST & HC & EA & EG & ER & NR & HM & HPR). assert (d0 = d) as -> by congruence. clear HO0.
  destruct (one_assign b io d G A io' j s a z r f HO HST EA EG ER NR HM HPR) as (d' & O' & H' & B' & HN & HY). exists d'. split; [exact O'|]. split; [exact (stores_bytes b io DbPlain d G A HO HST)|]. split; [exact B'|]. rewrite H'. split.
  - intros kd' rows I NE T. destruct (HC kd' I) as (l & C & II). apply (HN kd' l rows C); [tauto|exact T].
  - intros rows I T. destruct (HC kd I) as (l & C & II). exact (HY kd l rows C (proj2 II eq_refl) T).
Qed.
Lemma listed_all : In KPlaylistTreeNode listed_tables /\ In KArtist listed_tables /\ In KTrack listed_tables /\ In KPlaylistEntry listed_tables.
Proof. cbn. tauto. Qed.
(** The replaced node *)
Definition swap (nd nd' : node) (n : node) : node := if nd_id n =? nd_id nd then nd' else n.
Lemma swap_map ns1 nd ns2 nd' : NoDup (map nd_id (ns1 ++ nd :: ns2)) -> map (swap nd nd') (ns1 ++ nd :: ns2) = ns1 ++ nd' :: ns2.
Proof.
  intro D. rewrite map_app in D. cbn [map] in D. apply NoDup_remove_2 in D. rewrite <- map_app in D.
  assert (forall l, incl l (ns1 ++ ns2) -> map (swap nd nd') l = l) as H.
  { induction l as [|n l IH]; intro I; [easy|]. cbn [map]. rewrite IH by (intros m M; apply I; now right). f_equal. unfold swap. destruct (N.eqb_spec (nd_id n) (nd_id nd)) as [E|]; [|easy]. destruct D. rewrite <- E. apply in_map. apply I. now left. }
  rewrite map_app. cbn [map]. rewrite !H by (intros m M; apply in_or_app; tauto). unfold swap at 1. now rewrite N.eqb_refl.
Qed.

Lemma unique_node ns1 nd ns2 n : NoDup (map nd_id (ns1 ++ nd :: ns2)) -> In n (ns1 ++ nd :: ns2) -> nd_id n = nd_id nd -> n = nd.
Proof.
  intros D I EN. rewrite map_app in D. cbn [map] in D. apply NoDup_remove_2 in D. rewrite <- map_app in D.
  apply in_app_or in I as [I|[I|I]]; [|easy|]; destruct D; rewrite <- EN; apply in_map, in_or_app; tauto.
Qed.
Lemma only_place {X} (P : X -> Prop) (x : X) l1 l2 m1 m2 : P x -> Forall (fun y => ~ P y) (m1 ++ m2) -> l1 ++ x :: l2 = m1 ++ x :: m2 -> l1 = m1 /\ l2 = m2.
Proof.
  intros HX. revert m1. induction l1 as [|y l1 IH]; intros [|z m1] HF E; cbn [List.app] in *.
  - injection E as ->. easy.
  - injection E as <- ->. inversion HF as [|? ? H _]; subst. now destruct H.
  - injection E as -> <-. rewrite Forall_forall in HF. destruct (HF x); [apply in_elt|easy].
  - injection E as -> E. inversion HF; subst. destruct (IH m1) as [-> ->]; easy.
Qed.

(** ** The theorems *)
(** C95.  The tables then have the new row in place of the old one; the other rows are as before, so the theorems apply again. *)
Theorem c95_rows : forall b io kd r f io' ns arts trs es, listing_rows b io ns arts trs es -> edited b io kd r f io' ->
  (forall nd, kd = KPlaylistTreeNode -> node_of_row (changed f r) = Some nd -> exists ns1 old ns2, ns = ns1 ++ old :: ns2 /\ node_of_row r = Some old /\ listing_rows b io' (ns1 ++ nd :: ns2) arts trs es) /\
  (forall a, kd = KArtist -> artist_of_row (changed f r) = Some a -> exists l1 old l2, arts = l1 ++ old :: l2 /\ artist_of_row r = Some old /\ listing_rows b io' ns (l1 ++ a :: l2) trs es) /\
  (forall t, kd = KTrack -> listed_track_of_row (changed f r) = Some t -> exists l1 old l2, trs = l1 ++ old :: l2 /\ listed_track_of_row r = Some old /\ listing_rows b io' ns arts (l1 ++ t :: l2) es) /\
  (forall e, kd = KPlaylistEntry -> pentry_of_row (changed f r) = Some e -> exists l1 old l2, es = l1 ++ old :: l2 /\ pentry_of_row r = Some old /\ listing_rows b io' ns arts trs (l1 ++ e :: l2)).
Proof.
  intros b io kd r f io' ns arts trs es (d & rn & ra & rt & re & HB & HO & Tn & Fn & Ta & Fa & Tt & Ft & Te & Fe) HE.
  destruct (edited_tables b io kd r f io' d HO HE) as (d' & O' & _ & B' & HN & HY). destruct listed_all as (I1 & I2 & I3 & I4).
  split; [|split; [|split]].
  - intros nd -> E. destruct (HY rn I1 Tn) as (R1 & R2 & rn' & F1 & F2 & Tn'). destruct (same_swap node_of_row R1 r _ R2 rn rn' ns nd same_node F1 F2 E Fn) as (ns1 & old & ns2 & EN & EO & Fn').
    destruct (HN KArtist ra I2) as (ma & ra' & A1 & A2 & Ta'); [easy|easy|]. destruct (HN KTrack rt I3) as (mt & rt' & T1 & T2 & Tt'); [easy|easy|]. destruct (HN KPlaylistEntry re I4) as (me & re' & E1 & E2 & Te'); [easy|easy|].
    exists ns1, old, ns2. split; [easy|]. split; [easy|]. exists d', rn', ra', rt', re'. do 4 (split; [easy|]). split; [easy|]. split; [exact (same_both _ _ _ _ _ same_artist A1 A2 Fa)|]. split; [easy|].
    split; [exact (same_both _ _ _ _ _ same_listed_track T1 T2 Ft)|]. split; [easy|]. exact (same_both _ _ _ _ _ same_pentry E1 E2 Fe).
  - intros a -> E. destruct (HY ra I2 Ta) as (R1 & R2 & ra' & F1 & F2 & Ta'). destruct (same_swap artist_of_row R1 r _ R2 ra ra' arts a same_artist F1 F2 E Fa) as (l1 & old & l2 & EN & EO & Fa').
    destruct (HN KPlaylistTreeNode rn I1) as (mn & rn' & N1 & N2 & Tn'); [easy|easy|]. destruct (HN KTrack rt I3) as (mt & rt' & T1 & T2 & Tt'); [easy|easy|]. destruct (HN KPlaylistEntry re I4) as (me & re' & E1 & E2 & Te'); [easy|easy|].
    exists l1, old, l2. split; [easy|]. split; [easy|]. exists d', rn', ra', rt', re'. do 3 (split; [easy|]). split; [exact (same_both _ _ _ _ _ same_node N1 N2 Fn)|]. do 3 (split; [easy|]).
    split; [exact (same_both _ _ _ _ _ same_listed_track T1 T2 Ft)|]. split; [easy|]. exact (same_both _ _ _ _ _ same_pentry E1 E2 Fe).
  - intros t -> E. destruct (HY rt I3 Tt) as (R1 & R2 & rt' & F1 & F2 & Tt'). destruct (same_swap listed_track_of_row R1 r _ R2 rt rt' trs t same_listed_track F1 F2 E Ft) as (l1 & old & l2 & EN & EO & Ft').
    destruct (HN KPlaylistTreeNode rn I1) as (mn & rn' & N1 & N2 & Tn'); [easy|easy|]. destruct (HN KArtist ra I2) as (ma & ra' & A1 & A2 & Ta'); [easy|easy|]. destruct (HN KPlaylistEntry re I4) as (me & re' & E1 & E2 & Te'); [easy|easy|].
    exists l1, old, l2. split; [easy|]. split; [easy|]. exists d', rn', ra', rt', re'. do 3 (split; [easy|]). split; [exact (same_both _ _ _ _ _ same_node N1 N2 Fn)|]. split; [easy|]. split; [exact (same_both _ _ _ _ _ same_artist A1 A2 Fa)|].
    do 3 (split; [easy|]). exact (same_both _ _ _ _ _ same_pentry E1 E2 Fe).
  - intros e -> E. destruct (HY re I4 Te) as (R1 & R2 & re' & F1 & F2 & Te'). destruct (same_swap pentry_of_row R1 r _ R2 re re' es e same_pentry F1 F2 E Fe) as (l1 & old & l2 & EN & EO & Fe').
    destruct (HN KPlaylistTreeNode rn I1) as (mn & rn' & N1 & N2 & Tn'); [easy|easy|]. destruct (HN KArtist ra I2) as (ma & ra' & A1 & A2 & Ta'); [easy|easy|]. destruct (HN KTrack rt I3) as (mt & rt' & T1 & T2 & Tt'); [easy|easy|].
    exists l1, old, l2. split; [easy|]. split; [easy|]. exists d', rn', ra', rt', re'. do 3 (split; [easy|]). split; [exact (same_both _ _ _ _ _ same_node N1 N2 Fn)|]. split; [easy|]. split; [exact (same_both _ _ _ _ _ same_artist A1 A2 Fa)|].
    split; [easy|]. split; [exact (same_both _ _ _ _ _ same_listed_track T1 T2 Ft)|]. now split.
Qed.
Print Assumptions c95_rows.
(** A folder or playlist with another name: the listing has the new name in the line of the node, all else is as before. *)
Theorem c95_name : forall b io r f io' ns arts trs es nd nd', listing_rows b io ns arts trs es -> edited b io KPlaylistTreeNode r f io' -> node_of_row r = Some nd -> node_of_row (changed f r) = Some nd' ->
  distinct ns -> nd_id nd' = nd_id nd -> nd_parent nd' = nd_parent nd ->
  exists ns1 ns2 v F, ns = ns1 ++ nd :: ns2 /\ ordered ns v /\ (forall y, node_lines es arts trs y (F y)) /\ lists b io ns v F /\
    lists b io' (ns1 ++ nd' :: ns2) (map (fun y => (fst y, if nd_id (snd y) =? nd_id nd then nd' else snd y)) v) F /\
    forall k, exists ls, F (k, nd) = ([nd_name nd], LNode k (nd_folder nd) (nd_name nd)) :: ls /\ F (k, nd') = ([nd_name nd'], LNode k (nd_folder nd') (nd_name nd')) :: ls.
Proof.
  intros b io r f io' ns arts trs es nd nd' HL HE E E' D HI HP. destruct (c95_rows _ _ _ _ _ _ _ _ _ _ HL HE) as (H & _). destruct (H nd' eq_refl E') as (ns1 & old & ns2 & -> & EO & HL').
  assert (old = nd) as -> by congruence. destruct (ordered_visit _ D) as (v & V & O). exists ns1, ns2, v, (items es arts trs). split; [easy|]. split; [exact O|]. split; [apply items_lines|]. split; [now apply lists_rows|]. split.
  - change (lists b io' (ns1 ++ nd' :: ns2) (map (fun y => (fst y, swap nd nd' (snd y))) v) (items es arts trs)). rewrite <- (swap_map ns1 nd ns2 nd') in HL' |- * by apply D.
    apply lists_rows; [exact HL'| |].
    + unfold distinct. replace (map nd_id (map (swap nd nd') (ns1 ++ nd :: ns2))) with (map nd_id (ns1 ++ nd :: ns2)); [exact D|]. rewrite map_map. apply map_ext. intro n. unfold swap. destruct (N.eqb_spec (nd_id n) (nd_id nd)) as [EN|]; congruence.
    + rewrite map_length, visit_map, V; [reflexivity| |]; intros n I; unfold swap; destruct (N.eqb_spec (nd_id n) (nd_id nd)) as [EN|]; try congruence. now rewrite (unique_node ns1 nd ns2 n (proj1 D) I EN).
  - intro k. unfold items, row_items. cbn [fst snd]. rewrite HI. eexists. split; reflexivity.
Qed.
Print Assumptions c95_name.
(** Another track for the entry with number [x] of playlist [id], the only one with this number there: the line of the entry is the one for the new track; all else is as before. *)
Theorem c95_entry : forall b io r f io' ns arts trs es x t t' id, listing_rows b io ns arts trs es -> edited b io KPlaylistEntry r f io' -> pentry_of_row r = Some (mk_pentry x t id) ->
  pentry_of_row (changed f r) = Some (mk_pentry x t' id) -> distinct ns -> (exists es1 es2, es = es1 ++ mk_pentry x t id :: es2 /\ Forall (fun e => ~ (pe_playlist e = id /\ pe_index e = x)) (es1 ++ es2)) ->
  exists v F F', ordered ns v /\ (forall y, node_lines es arts trs y (F y)) /\ lists b io ns v F /\ lists b io' ns v F' /\
    (forall y, nd_id (snd y) <> id -> F' y = F y) /\
    (forall y, nd_id (snd y) = id -> exists ps1 ps2 first ls1 it it' ls2, F y = first :: ls1 ++ it :: ls2 /\ F' y = first :: ls1 ++ it' :: ls2 /\
       track_line arts trs (fst y) x t it /\ track_line arts trs (fst y) x t' it' /\
       Forall2 (fun p it => track_line arts trs (fst y) (fst p) (snd p) it) ps1 ls1 /\ Forall (fun p => fst p < x) ps1 /\
       Forall2 (fun p it => track_line arts trs (fst y) (fst p) (snd p) it) ps2 ls2 /\ Forall (fun p => x < fst p) ps2).
Proof.
  intros b io r f io' ns arts trs es x t t' id HL HE E E' D (fs1 & fs2 & EF & HF). destruct (c95_rows _ _ _ _ _ _ _ _ _ _ HL HE) as (_ & _ & _ & H). destruct (H _ eq_refl E') as (es1 & old & es2 & -> & EO & HL').
  assert (old = mk_pentry x t id) as -> by congruence. clear EO. apply only_place with (P := fun e => pe_playlist e = id /\ pe_index e = x) in EF as [<- <-]; [|easy|exact HF].
  destruct (ordered_visit _ D) as (v & V & O). exists v, (items (es1 ++ mk_pentry x t id :: es2) arts trs), (items (es1 ++ mk_pentry x t' id :: es2) arts trs).
  split; [exact O|]. split; [apply items_lines|]. split; [now apply lists_rows|]. split; [now apply lists_rows|]. split.
  - intros y NE. transitivity (items (es1 ++ es2) arts trs y); [|symmetry]; apply items_eq; (apply lines_other; [exact NE|apply items_lines]).
  - intros [k n] EN. cbn [fst snd] in *. destruct (lines_insert es1 es2 x id arts trs k n HF EN) as (ps1 & ps2 & ls1 & ls2 & P1 & P2 & L1 & L2 & _ & NT). destruct (NT t) as (it & LI & N1), (NT t') as (it' & LI' & N2).
    exists ps1, ps2. eexists. exists ls1, it, it', ls2. split; [exact (items_eq _ _ _ _ _ N1)|]. split; [exact (items_eq _ _ _ _ _ N2)|]. easy.
Qed.
Print Assumptions c95_entry.
(** Another title or artist for the only track with its id: the lines of this track say the new ones; all else is as before. *)
Theorem c95_track : forall b io r f io' ns arts trs es t a title a' title', listing_rows b io ns arts trs es -> edited b io KTrack r f io' -> listed_track_of_row r = Some (t, (a, title)) ->
  listed_track_of_row (changed f r) = Some (t, (a', title')) -> distinct ns -> NoDup (map fst trs) ->
  exists l1 l2 v F F', trs = l1 ++ (t, (a, title)) :: l2 /\ ordered ns v /\ (forall y, node_lines es arts trs y (F y)) /\ (forall y, node_lines es arts (l1 ++ (t, (a', title')) :: l2) y (F' y)) /\
    lists b io ns v F /\ lists b io' ns v F' /\
    forall y, exists first ls ls', F y = first :: ls /\ F' y = first :: ls' /\
      Forall2 (fun it it' => it' = it \/ exists x, titled arts (fst y) x a title it /\ titled arts (fst y) x a' title' it') ls ls'.
Proof.
  intros b io r f io' ns arts trs es t a title a' title' HL HE E E' D ND. destruct (c95_rows _ _ _ _ _ _ _ _ _ _ HL HE) as (_ & _ & H & _). destruct (H _ eq_refl E') as (l1 & old & l2 & -> & EO & HL').
  assert (old = (t, (a, title))) as -> by congruence. clear EO. rewrite map_app in ND. cbn [map fst] in ND. apply NoDup_remove_2 in ND. rewrite <- map_app in ND.
  destruct (ordered_visit _ D) as (v & V & O). exists l1, l2, v, (items es arts (l1 ++ (t, (a, title)) :: l2)), (items es arts (l1 ++ (t, (a', title')) :: l2)).
  split; [easy|]. split; [exact O|]. split; [apply items_lines|]. split; [apply items_lines|]. split; [now apply lists_rows|]. split; [now apply lists_rows|].
  intros [k n]. eexists _, _, _. split; [reflexivity|]. split; [reflexivity|]. cbn [fst]. induction (match mm_get (entries_map es) (nd_id (snd (k, n))) with Some l => l | None => [] end) as [|[x u] ps IH]; [constructor|].
  cbn [map fst snd]. constructor; [|exact IH]. unfold track_item. rewrite !get_insert by exact ND. destruct (N.eqb_spec u t) as [->|NE]; [right|now left]. exists x.
  assert (forall a0 title0, titled arts k x a0 title0 (match mm_get (insert_all arts) a0 with Some name => ([name; title0], LTrack k x (TFound name title0)) | None => ([title0], LTrack k x (TNoArtist a0 title0)) end)) as HT.
  { intros a0 title0. destruct (mm_get (insert_all arts) a0) as [name|] eqn:EA; [apply titled_by; now apply insert_all_get|apply titled_unknown; now apply insert_all_none]. }
  split; apply HT.
Qed.
Print Assumptions c95_track.
(** Another name for the only artist with its id: the lines of its tracks say the new one; all else is as before. *)
Theorem c95_artist : forall b io r f io' ns arts trs es a name name', listing_rows b io ns arts trs es -> edited b io KArtist r f io' -> artist_of_row r = Some (a, name) ->
  artist_of_row (changed f r) = Some (a, name') -> distinct ns -> NoDup (map fst arts) ->
  exists l1 l2 v F F', arts = l1 ++ (a, name) :: l2 /\ ordered ns v /\ (forall y, node_lines es arts trs y (F y)) /\ (forall y, node_lines es (l1 ++ (a, name') :: l2) trs y (F' y)) /\
    lists b io ns v F /\ lists b io' ns v F' /\
    forall y, exists first ls ls', F y = first :: ls /\ F' y = first :: ls' /\
      Forall2 (fun it it' => it' = it \/ exists x title, it = ([name; title], LTrack (fst y) x (TFound name title)) /\ it' = ([name'; title], LTrack (fst y) x (TFound name' title))) ls ls'.
Proof.
  intros b io r f io' ns arts trs es a name name' HL HE E E' D ND. destruct (c95_rows _ _ _ _ _ _ _ _ _ _ HL HE) as (_ & H & _). destruct (H _ eq_refl E') as (l1 & old & l2 & -> & EO & HL').
  assert (old = (a, name)) as -> by congruence. clear EO. rewrite map_app in ND. cbn [map fst] in ND. apply NoDup_remove_2 in ND. rewrite <- map_app in ND.
  destruct (ordered_visit _ D) as (v & V & O). exists l1, l2, v, (items es (l1 ++ (a, name) :: l2) trs), (items es (l1 ++ (a, name') :: l2) trs).
  split; [easy|]. split; [exact O|]. split; [apply items_lines|]. split; [apply items_lines|]. split; [now apply lists_rows|]. split; [now apply lists_rows|].
  intros [k n]. eexists _, _, _. split; [reflexivity|]. split; [reflexivity|]. cbn [fst]. induction (match mm_get (entries_map es) (nd_id (snd (k, n))) with Some l => l | None => [] end) as [|[x u] ps IH]; [constructor|].
  cbn [map fst snd]. constructor; [|exact IH]. unfold track_item. destruct (mm_get (insert_all trs) u) as [[a0 ti]|]; [|now left]. rewrite !get_insert by exact ND. destruct (N.eqb_spec a0 a) as [->|NE]; [right|now left]. now exists x, ti.
Qed.
Print Assumptions c95_artist.

(** ** The export *)
(** What the next export is made of *)
Theorem c95_exported : forall b io kd r f io' ns es tr, export_rows b io ns es tr -> edited b io kd r f io' ->
  (forall nd, kd = KPlaylistTreeNode -> node_of_row (changed f r) = Some nd -> exists ns1 old ns2, ns = ns1 ++ old :: ns2 /\ node_of_row r = Some old /\ export_rows b io' (ns1 ++ nd :: ns2) es tr) /\
  (kd = KArtist -> export_rows b io' ns es tr) /\
  (forall t s p, kd = KTrack -> track_of_row (changed f r) = Some (t, s) -> dstr_into_string s = inl p ->
     exists l1 t0 s0 p0 l2, tr = l1 ++ (t0, p0) :: l2 /\ track_of_row r = Some (t0, s0) /\ dstr_into_string s0 = inl p0 /\ export_rows b io' ns es (l1 ++ (t, p) :: l2)) /\
  (forall e, kd = KPlaylistEntry -> pentry_of_row (changed f r) = Some e -> exists l1 old l2, es = l1 ++ old :: l2 /\ pentry_of_row r = Some old /\ export_rows b io' ns (l1 ++ e :: l2) tr).
Proof.
  intros b io kd r f io' ns es tr (d & rn & re & rt & raw & HB & HO & Tn & Fn & Te & Fe & Tt & Ft & FD) HE.
  destruct (edited_tables b io kd r f io' d HO HE) as (d' & O' & _ & B' & HN & HY). destruct listed_all as (I1 & I2 & I3 & I4).
  split; [|split; [|split]].
  - intros nd -> E. destruct (HY rn I1 Tn) as (R1 & R2 & rn' & F1 & F2 & Tn'). destruct (same_swap node_of_row R1 r _ R2 rn rn' ns nd same_node F1 F2 E Fn) as (ns1 & old & ns2 & EN & EO & Fn').
    destruct (HN KTrack rt I3) as (mt & rt' & T1 & T2 & Tt'); [easy|easy|]. destruct (HN KPlaylistEntry re I4) as (me & re' & E1 & E2 & Te'); [easy|easy|].
    exists ns1, old, ns2. split; [easy|]. split; [easy|]. exists d', rn', re', rt', raw. do 5 (split; [easy|]). split; [exact (same_both _ _ _ _ _ same_pentry E1 E2 Fe)|]. split; [easy|]. split; [exact (same_both _ _ _ _ _ same_track T1 T2 Ft)|easy].
  - intros ->. destruct (HN KPlaylistTreeNode rn I1) as (mn & rn' & N1 & N2 & Tn'); [easy|easy|]. destruct (HN KTrack rt I3) as (mt & rt' & T1 & T2 & Tt'); [easy|easy|]. destruct (HN KPlaylistEntry re I4) as (me & re' & E1 & E2 & Te'); [easy|easy|].
    exists d', rn', re', rt', raw. do 3 (split; [easy|]). split; [exact (same_both _ _ _ _ _ same_node N1 N2 Fn)|]. split; [easy|]. split; [exact (same_both _ _ _ _ _ same_pentry E1 E2 Fe)|]. split; [easy|]. split; [exact (same_both _ _ _ _ _ same_track T1 T2 Ft)|easy].
  - intros t s p -> E ED. destruct (HY rt I3 Tt) as (R1 & R2 & rt' & F1 & F2 & Tt'). destruct (same_swap track_of_row R1 r _ R2 rt rt' raw (t, s) same_track F1 F2 E Ft) as (w1 & [t0 s0] & w2 & -> & EO & Ft').
    destruct (HN KPlaylistTreeNode rn I1) as (mn & rn' & N1 & N2 & Tn'); [easy|easy|]. destruct (HN KPlaylistEntry re I4) as (me & re' & E1 & E2 & Te'); [easy|easy|].
    apply Forall2_app_inv_l in FD as (l1 & l2' & D1 & D2 & ->). inversion D2 as [|? [t1 p0] ? l2 [EX1 EX2] D3]; subst. cbn [fst snd] in *. subst t1. exists l1, t0, s0, p0, l2. do 3 (split; [easy|]).
    exists d', rn', re', rt', (w1 ++ (t, s) :: w2). do 3 (split; [easy|]). split; [exact (same_both _ _ _ _ _ same_node N1 N2 Fn)|]. split; [easy|]. split; [exact (same_both _ _ _ _ _ same_pentry E1 E2 Fe)|]. split; [easy|]. split; [easy|].
    apply Forall2_app; [easy|]. now constructor.
  - intros e -> E. destruct (HY re I4 Te) as (R1 & R2 & re' & F1 & F2 & Te'). destruct (same_swap pentry_of_row R1 r _ R2 re re' es e same_pentry F1 F2 E Fe) as (l1 & old & l2 & EN & EO & Fe').
    destruct (HN KPlaylistTreeNode rn I1) as (mn & rn' & N1 & N2 & Tn'); [easy|easy|]. destruct (HN KTrack rt I3) as (mt & rt' & T1 & T2 & Tt'); [easy|easy|].
    exists l1, old, l2. split; [easy|]. split; [easy|]. exists d', rn', re', rt', raw. do 3 (split; [easy|]). split; [exact (same_both _ _ _ _ _ same_node N1 N2 Fn)|]. do 3 (split; [easy|]). split; [exact (same_both _ _ _ _ _ same_track T1 T2 Ft)|easy].
Qed.
Print Assumptions c95_exported.
Lemma exports_rows b io ns es tr depth out canon ts : export_rows b io ns es tr -> playlist_tree depth ns = Some (Done ts) -> exports b io depth out canon ts (content canon (entries_map es) (tracks_map tr)).
Proof. intros (d & rn & re & rt & raw & HB & HO & Tn & Fn & Te & Fe & Tt & Ft & FD) PT. exists d. split; [exact HO|]. exact (export_is b io DbPlain d out canon depth rn re rt ns es raw tr ts HB HO Tn Te Tt Fn Fe Ft FD PT). Qed.
(** A folder or playlist with another name: the export makes the same files with the same contents, only the name of this file or folder is another. *)
Theorem c95_export_name : forall b io r f io' ns es tr nd nd' name', export_rows b io ns es tr -> edited b io KPlaylistTreeNode r f io' -> node_of_row r = Some nd -> node_of_row (changed f r) = Some nd' ->
  NoDup (map nd_id ns) -> nd_id nd' = nd_id nd -> nd_parent nd' = nd_parent nd -> nd_folder nd' = nd_folder nd -> decodes nd' name' ->
  forall depth out canon ts, playlist_tree depth ns = Some (Done ts) ->
  exists c, (forall id, playlist_text canon es tr id (c id)) /\ exports b io depth out canon ts c /\ exports b io' depth out canon (map (renamed (nd_id nd) name') ts) c.
Proof.
  intros b io r f io' ns es tr nd nd' name' HX HE E E' ND HI HP HF HD depth out canon ts PT. destruct (c95_exported _ _ _ _ _ _ _ _ _ HX HE) as (H & _). destruct (H _ eq_refl E') as (ns1 & old & ns2 & -> & EO & HX').
  assert (old = nd) as -> by congruence. exists (content canon (entries_map es) (tracks_map tr)). split; [intro; apply content_text|]. split; [exact (exports_rows _ _ _ _ _ _ _ _ _ HX PT)|].
  apply (exports_rows _ _ (ns1 ++ nd' :: ns2)); [exact HX'|]. rewrite <- (swap_map ns1 nd ns2 nd' ND). unfold playlist_tree in *. revert PT. apply child_renamed; intros n I; unfold swap; destruct (N.eqb_spec (nd_id n) (nd_id nd)) as [EN|]; try easy; try congruence;
    rewrite (unique_node ns1 nd ns2 n ND I EN) in *; congruence.
Qed.
Print Assumptions c95_export_name.
(** Another track for an entry: only the file of its playlist is another, with the line for the new track (none if there is no such track) in place of the one for the old. *)
Theorem c95_export_entry : forall b io r f io' ns es tr x t t' id, export_rows b io ns es tr -> edited b io KPlaylistEntry r f io' -> pentry_of_row r = Some (mk_pentry x t id) ->
  pentry_of_row (changed f r) = Some (mk_pentry x t' id) -> (exists es1 es2, es = es1 ++ mk_pentry x t id :: es2 /\ Forall (fun e => ~ (pe_playlist e = id /\ pe_index e = x)) (es1 ++ es2)) ->
  forall depth out canon ts, playlist_tree depth ns = Some (Done ts) ->
  exists c c', (forall id, playlist_text canon es tr id (c id)) /\ exports b io depth out canon ts c /\ exports b io' depth out canon ts c' /\ (forall id', id' <> id -> c' id' = c id') /\
    exists ps1 ps2 ls1 old new ls2, c id = flat_map (fun l => l ++ [10]) (ls1 ++ old ++ ls2) /\ c' id = flat_map (fun l => l ++ [10]) (ls1 ++ new ++ ls2) /\
      listed canon tr ps1 ls1 /\ listed canon tr [(x, t)] old /\ listed canon tr [(x, t')] new /\ listed canon tr ps2 ls2 /\ Forall (fun y => fst y < x) ps1 /\ Forall (fun y => x < fst y) ps2.
Proof.
  intros b io r f io' ns es tr x t t' id HX HE E E' (fs1 & fs2 & EF & HF) depth out canon ts PT. destruct (c95_exported _ _ _ _ _ _ _ _ _ HX HE) as (_ & _ & _ & H). destruct (H _ eq_refl E') as (es1 & old & es2 & -> & EO & HX').
  assert (old = mk_pentry x t id) as -> by congruence. clear EO. apply only_place with (P := fun e => pe_playlist e = id /\ pe_index e = x) in EF as [<- <-]; [|easy|exact HF].
  exists (content canon (entries_map (es1 ++ mk_pentry x t id :: es2)) (tracks_map tr)), (content canon (entries_map (es1 ++ mk_pentry x t' id :: es2)) (tracks_map tr)).
  split; [intro; apply content_text|]. split; [exact (exports_rows _ _ _ _ _ _ _ _ _ HX PT)|]. split; [exact (exports_rows _ _ _ _ _ _ _ _ _ HX' PT)|]. split; [intros id' NE; now rewrite !content_others|].
  destruct (content_swap canon es1 es2 x t t' id tr HF) as (ps1 & ps2 & ls1 & o & n & ls2 & P1 & P2 & L1 & LO & LN & L2 & C & C'). now exists ps1, ps2, ls1, o, n, ls2.
Qed.
Print Assumptions c95_export_entry.
(** Another path for the only track with its id: the lines of this track say the new path; files without such a line are the same. *)
Theorem c95_export_track : forall b io r f io' ns es tr t s s' p', export_rows b io ns es tr -> edited b io KTrack r f io' -> track_of_row r = Some (t, s) ->
  track_of_row (changed f r) = Some (t, s') -> dstr_into_string s' = inl p' -> NoDup (map fst tr) ->
  forall depth out canon ts, playlist_tree depth ns = Some (Done ts) ->
  exists l1 p l2 c c', tr = l1 ++ (t, p) :: l2 /\ dstr_into_string s = inl p /\ (forall id, playlist_text canon es tr id (c id)) /\ (forall id, playlist_text canon es (l1 ++ (t, p') :: l2) id (c' id)) /\
    exports b io depth out canon ts c /\ exports b io' depth out canon ts c' /\
    forall id, exists ls ls', c id = flat_map (fun l => l ++ [10]) ls /\ c' id = flat_map (fun l => l ++ [10]) ls' /\
      Forall2 (fun l l' => l' = l \/ l = display (join canon (unrooted (utf8_enc p))) /\ l' = display (join canon (unrooted (utf8_enc p')))) ls ls' /\
      ((forall x, ~ last_of (fun e => pe_playlist e = id /\ pe_index e = x) es (mk_pentry x t id)) -> c' id = c id).
Proof.
  intros b io r f io' ns es tr t s s' p' HX HE E E' ED ND depth out canon ts PT. destruct (c95_exported _ _ _ _ _ _ _ _ _ HX HE) as (_ & _ & H & _). destruct (H _ _ _ eq_refl E' ED) as (l1 & t0 & s0 & p & l2 & -> & EO & EP & HX').
  rewrite E in EO. injection EO as <- <-. rewrite map_app in ND. cbn [map fst] in ND. apply NoDup_remove_2 in ND. rewrite <- map_app in ND.
  exists l1, p, l2, (content canon (entries_map es) (tracks_map (l1 ++ (t, p) :: l2))), (content canon (entries_map es) (tracks_map (l1 ++ (t, p') :: l2))).
  split; [easy|]. split; [easy|]. split; [intro; apply content_text|]. split; [intro; apply content_text|]. split; [exact (exports_rows _ _ _ _ _ _ _ _ _ HX PT)|]. split; [exact (exports_rows _ _ _ _ _ _ _ _ _ HX' PT)|].
  intro id. destruct (content_text canon es (l1 ++ (t, p) :: l2) id) as (ps & ls & EC & S & HP & HL). destruct (listed_swap canon l1 l2 t p p' ps ls ND HL) as (ls' & HL' & HK & HF).
  assert (content canon (entries_map es) (tracks_map (l1 ++ (t, p') :: l2)) id = flat_map (fun l => l ++ [10]) ls') as EC'.
  { apply (text_fun canon es (l1 ++ (t, p') :: l2) id); [|apply content_text]. now exists ps, ls'. }
  exists ls, ls'. split; [exact EC|]. split; [exact EC'|]. split; [exact HF|]. intro N. rewrite EC, EC', HK; [easy|]. intros x I. apply (N x). now apply HP.
Qed.
Print Assumptions c95_export_track.
(** The names of artists, and what tracks have besides id and path, make no difference. *)
Theorem c95_export_same : forall b io kd r f io' ns es tr, export_rows b io ns es tr -> edited b io kd r f io' -> kd = KArtist \/ kd = KTrack /\ track_of_row r <> None /\ track_of_row (changed f r) = track_of_row r ->
  forall depth out canon ts, playlist_tree depth ns = Some (Done ts) ->
  exists c, (forall id, playlist_text canon es tr id (c id)) /\ exports b io depth out canon ts c /\ exports b io' depth out canon ts c.
Proof.
  intros b io kd r f io' ns es tr HX HE HK depth out canon ts PT. exists (content canon (entries_map es) (tracks_map tr)). split; [intro; apply content_text|]. split; [exact (exports_rows _ _ _ _ _ _ _ _ _ HX PT)|].
  apply (exports_rows _ _ ns); [|exact PT]. destruct (c95_exported _ _ _ _ _ _ _ _ _ HX HE) as (_ & H1 & H2 & _). destruct HK as [->|(-> & NN & EQ)]; [now apply H1|].
  destruct (track_of_row r) as [[t s]|] eqn:E; [|easy]. assert (exists p, dstr_into_string s = inl p) as [p ED].
  { destruct HX as (d & rn & re & rt & raw & HB & HO & _ & _ & _ & _ & Tt & Ft & FD). destruct (edited_tables b io KTrack r f io' d HO HE) as (d' & _ & _ & _ & _ & HY). destruct (HY rt (proj1 (proj2 (proj2 listed_all))) Tt) as (R1 & R2 & rt' & F1 & _).
    apply (same_rows_back track_of_row same_track _ _ _ F1) in Ft. apply Forall2_app_inv_l in Ft as (w1 & w2' & _ & F & ->). inversion F as [|? x ? w2 EX _]; subst. apply Forall2_app_inv_l in FD as (? & ? & _ & D & _). inversion D as [|? y ? ? [_ EY] _]; subst. assert (x = (t, s)) as -> by congruence. now exists (snd y). }
  destruct (H2 t s p eq_refl EQ ED) as (l1 & t0 & s0 & p0 & l2 & -> & E0 & ED0 & HX'). injection E0 as <- <-. rewrite ED in ED0. injection ED0 as <-. exact HX'.
Qed.
Print Assumptions c95_export_same.
(** What [edited] asks of the file can be computed, as in C94. *)
Theorem c95_checked : forall b io d kd r f j s l a z io', bytes_ok io -> len io < 2 ^ 64 - 1 -> db_open io DbPlain = DOk d -> 28 + 16 * len (dh_tables (db_header d)) <= dh_page_size (db_header d) ->
  (forall kd', In kd' listed_tables -> table_list b d kd' <> None) -> table_list b d kd = Some l -> In j l -> survey b d j = Some s -> survey_grade b d j <> GAny ->
  sh_rows s = a ++ r :: z -> r <> RUnknown -> modest b f r -> program b DbPlain io [AAssign j (only (len a) f)] io' -> edited b io kd r f io'.
Proof.
  intros b io d kd r f j s l a z io' HB HL HO HH HT EL II ES EG ER NR HM HP. exists d, (survey_grade b d), (survey b d), j, s, a, z. split; [exact HO|].
  split; [apply (open_stores b io DbPlain); try easy; intros i t; now apply (survey_good b DbPlain io)|]. split; [|easy].
  assert (forall kd' l', table_list b d kd' = Some l' -> In j l' -> sh_type s = PT kd') as TY.
  { intros kd' l' E I. apply (c92_list b DbPlain io d kd' l' HB HL HO) in E as (_ & _ & _ & _ & H). destruct (H j I) as (p & CP & TP). unfold survey in ES. rewrite CP in ES. cbn [option_map] in ES. injection ES as <-. exact TP. }
  intros kd' I. destruct (table_list b d kd') as [l'|] eqn:E'; [|now destruct (HT kd' I)]. exists l'. split.
  - apply (c92_list b DbPlain io d kd' l' HB HL HO) in E' as (j' & tb' & FT' & HP' & _). now exists j', tb'.
  - split; [|intros ->; congruence]. intro I'. pose proof (TY _ _ E' I') as T1. pose proof (TY _ _ EL II) as T2. congruence.
Qed.
Print Assumptions c95_checked.
(** The rows of a checked page meet what C78 and C84 ask for changes that take no more room. *)
Theorem c95_modest : forall b k io d i s r, bytes_ok io -> len io < 2 ^ 64 - 1 -> db_open io k = DOk d -> survey b d i = Some s -> In r (sh_rows s) -> row_ok dstr_good r /\ row_writes b r.
Proof.
  intros b k io d i s r HB HL HO HS I. unfold survey in HS. destruct (checked_page b d i) as [p|] eqn:E; [|easy]. injection HS as <-. cbn [shelf_of sh_rows] in I.
  apply (checked_good b k io d i p HB HL HO) in E as (_ & _ & HC & HW & _). unfold page_consistent in HC. unfold page_writes in HW. unfold rows_of_page in I.
  destruct (pg_content p) as [c|c]; [|easy]. apply in_map_iff in I as ([o r'] & <- & I). cbn [snd]. destruct HC as [(_ & _ & _ & _ & _ & _ & _ & _ & _ & _ & HR) _]. rewrite Forall_forall in HR, HW. split; [apply (HR _ I)|apply (HW _ I)].
Qed.
Print Assumptions c95_modest.

(** ** Example: another name for a playlist, another track for an entry, another title, another path and another name of the artist, each in the database of C94 *)
Definition c95_page (j : N) : page := match load_page Debug c94_open j with (_, DOk p) => p | _ => c88_empty 0 KTrack end.
Definition c95_run (j i : N) (f : change) : list N :=
  match flush Debug (set_page (fst (load_page Debug c94_open j)) j (assign_page (only i f) 0 (c95_page j))) with DOk d => db_io d | _ => [] end.
Definition c95_row (j : N) (i : nat) : row := match survey Debug c94_open j with Some s => nth i (sh_rows s) RUnknown | None => RUnknown end.
Definition c95_name_of (s : string) : change := fields_only (set_nth 5 (VStr (DSShort (bytes_of s)))).
Definition c95_string (n : nat) (s : string) : change := set_string n (DSShort (bytes_of s)) false.
Lemma c95_does b k io d j g p0 : db_open io k = DOk d ->
  match load_page b d j with (_, DOk _) => True | _ => False end ->
  match flush b (set_page (fst (load_page b d j)) j (assign_page g 0 (match load_page b d j with (_, DOk p) => p | _ => p0 end))) with DOk _ => True | _ => False end ->
  program b k io [AAssign j g] (match flush b (set_page (fst (load_page b d j)) j (assign_page g 0 (match load_page b d j with (_, DOk p) => p | _ => p0 end))) with DOk d => db_io d | _ => [] end).
Proof.
  intros HO H1 H2. destruct (load_page b d j) as [d1 [p| |]] eqn:EP; [|destruct H1|destruct H1]. cbn [fst] in *. destruct (flush b (set_page d1 j (assign_page g 0 p))) as [d2| |] eqn:EF; [|destruct H2|destruct H2].
  exists d, (set_page d1 j (assign_page g 0 p)), d2. split; [exact HO|]. split; [|now split]. eapply acts_cons; [exact (does_assign _ _ _ _ _ _ EP)|]. apply acts_nil.
Qed.
Lemma c95_edited kd f j i l : table_list Debug c94_open kd = Some l -> In j l ->
  match survey Debug c94_open j with Some s => nth_error (sh_rows s) i = Some (c95_row j i) | None => False end ->
  c95_row j i <> RUnknown -> survey_grade Debug c94_open j <> GAny ->
  match load_page Debug c94_open j with (_, DOk _) => True | _ => False end -> match flush Debug (set_page (fst (load_page Debug c94_open j)) j (assign_page (only (N.of_nat i) f) 0 (c95_page j))) with DOk _ => True | _ => False end ->
  (row_ok dstr_good (c95_row j i) -> row_writes Debug (c95_row j i) -> modest Debug f (c95_row j i)) -> edited Debug c94_io kd (c95_row j i) f (c95_run j (N.of_nat i) f).
Proof.
  intros HT II HN NR HG HLP HFL HM. destruct (survey Debug c94_open j) as [s|] eqn:ES; [|easy]. pose proof (nth_error_In _ _ HN) as IN. apply nth_error_split in HN as (a & z & ER & EL).
  assert (len c94_io < 2 ^ 64 - 1) as HLEN by (vm_compute; reflexivity). destruct (c95_modest Debug DbPlain c94_io c94_open j s _ c94_bytes HLEN c94_opens ES IN) as [H1 H2].
  assert (N.of_nat i = len a) as EI by (unfold len; now rewrite EL). rewrite EI in *.
  apply (c95_checked Debug c94_io c94_open kd _ f j s l a z); [exact c94_bytes|exact HLEN|exact c94_opens|vm_compute; discriminate| |exact HT|exact II|exact ES|exact HG|exact ER|exact NR|now apply HM|].
  - intros kd' [<-|[<-|[<-|[<-|[]]]]]; vm_compute; discriminate.
  - revert HLP HFL. unfold c95_run, c95_page. apply (c95_does Debug DbPlain c94_io c94_open). exact c94_opens.
Qed.
Definition c95_node_io : list N := Eval vm_compute in c95_run 1 0 (c95_name_of "Dawn").
Definition c95_entry_io : list N := Eval vm_compute in c95_run 2 1 (fields_only (set_nth 1 (VInt 41))).
Definition c95_title_io : list N := Eval vm_compute in c95_run 3 0 (c95_string 17 "Uno").
Definition c95_path_io : list N := Eval vm_compute in c95_run 3 0 (c95_string 20 "/z.mp3").
Definition c95_artist_io : list N := Eval vm_compute in c95_run 4 0 (c95_string 0 "Al").
Lemma c95_runs1 : c95_run 1 0 (c95_name_of "Dawn") = c95_node_io.
Proof. vm_compute. reflexivity. Qed.
Lemma c95_runs2 : c95_run 2 1 (fields_only (set_nth 1 (VInt 41))) = c95_entry_io.
Proof. vm_compute. reflexivity. Qed.
Lemma c95_runs3 : c95_run 3 0 (c95_string 17 "Uno") = c95_title_io.
Proof. vm_compute. reflexivity. Qed.
Lemma c95_runs4 : c95_run 3 0 (c95_string 20 "/z.mp3") = c95_path_io.
Proof. vm_compute. reflexivity. Qed.
Lemma c95_runs5 : c95_run 4 0 (c95_string 0 "Al") = c95_artist_io.
Proof. vm_compute. reflexivity. Qed.
Example c95_example :
  edited Debug c94_io KPlaylistTreeNode (c95_row 1 0) (c95_name_of "Dawn") c95_node_io /\
  edited Debug c94_io KPlaylistEntry (c95_row 2 1) (fields_only (set_nth 1 (VInt 41))) c95_entry_io /\
  edited Debug c94_io KTrack (c95_row 3 0) (c95_string 17 "Uno") c95_title_io /\
  edited Debug c94_io KTrack (c95_row 3 0) (c95_string 20 "/z.mp3") c95_path_io /\
  edited Debug c94_io KArtist (c95_row 4 0) (c95_string 0 "Al") c95_artist_io.
Proof.
  rewrite <- c95_runs1, <- c95_runs2, <- c95_runs3, <- c95_runs4, <- c95_runs5. split; [|split; [|split; [|split]]].
  - apply (c95_edited KPlaylistTreeNode _ 1 0%nat [1]); [vm_compute; reflexivity|now left|vm_compute; reflexivity|vm_compute; discriminate|vm_compute; discriminate|vm_compute; exact I|vm_compute; exact I|].
    unfold c95_name_of. assert (c95_row 1 0 = c76_node 2 5 0 "Deep") as -> by (vm_compute; reflexivity). intros H1 H2.
    apply (c78_text _ _ _ _ 5 (DSShort (bytes_of "Deep")) (DSShort (bytes_of "Dawn")) [11; 68; 101; 101; 112] [11; 68; 97; 119; 110]); try easy. now apply c84_short.
  - apply (c95_edited KPlaylistEntry _ 2 1%nat [2]); [vm_compute; reflexivity|now left|vm_compute; reflexivity|vm_compute; discriminate|vm_compute; discriminate|vm_compute; exact I|vm_compute; exact I|].
    assert (c95_row 2 1 = entry_row 7 40 5) as -> by (vm_compute; reflexivity). intros H1 H2. apply (c78_number _ _ _ _ 1 u32f); try easy. now left.
  - apply (c95_edited KTrack _ 3 0%nat [3]); [vm_compute; reflexivity|now left|vm_compute; reflexivity|vm_compute; discriminate|vm_compute; discriminate|vm_compute; exact I|vm_compute; exact I|].
    assert (exists vs c, c95_row 3 0 = RRow KTrack vs (Some c) /\ nth_error (oa_items c) 17 = Some (DSShort (bytes_of "One"))) as (vs & c & -> & EN) by (eexists _, _; split; vm_compute; reflexivity). intros H1 H2.
    apply (c84_string _ _ _ _ 17 (DSShort (bytes_of "One")) _ [9; 79; 110; 101] [9; 85; 110; 111]); try easy. now apply c84_short.
  - apply (c95_edited KTrack _ 3 0%nat [3]); [vm_compute; reflexivity|now left|vm_compute; reflexivity|vm_compute; discriminate|vm_compute; discriminate|vm_compute; exact I|vm_compute; exact I|].
    assert (exists vs c, c95_row 3 0 = RRow KTrack vs (Some c) /\ nth_error (oa_items c) 20 = Some (DSShort (bytes_of "/a.mp3"))) as (vs & c & -> & EN) by (eexists _, _; split; vm_compute; reflexivity). intros H1 H2.
    apply (c84_string _ _ _ _ 20 (DSShort (bytes_of "/a.mp3")) _ [15; 47; 97; 46; 109; 112; 51] [15; 47; 122; 46; 109; 112; 51]); try easy. now apply c84_short.
  - apply (c95_edited KArtist _ 4 0%nat [4]); [vm_compute; reflexivity|now left|vm_compute; reflexivity|vm_compute; discriminate|vm_compute; discriminate|vm_compute; exact I|vm_compute; exact I|].
    assert (exists vs c, c95_row 4 0 = RRow KArtist vs (Some c) /\ nth_error (oa_items c) 0 = Some (DSShort (bytes_of "Ann"))) as (vs & c & -> & EN) by (eexists _, _; split; vm_compute; reflexivity). intros H1 H2.
    apply (c84_string _ _ _ _ 0 (DSShort (bytes_of "Ann")) _ [9; 65; 110; 110] [7; 65; 108]); try easy. now apply c84_short.
Qed.
Example c95_listings :
  let deep s := LNode 1 false (DSShort (bytes_of s)) in let sets := LNode 0 true (DSShort (bytes_of "Sets")) in let mix := LNode 0 false (DSShort (bytes_of "Mix")) in
  let one s t := LTrack 1 7 (TFound (DSShort (bytes_of s)) (DSShort (bytes_of t))) in let two x := LTrack 1 x (TNoArtist 8 (DSShort (bytes_of "Two"))) in
  list_playlists Debug 4 c94_io = Some (Done ([sets; deep "Deep"%string; two 1; one "Ann"%string "One"%string; mix; LTrack 0 1 (TMissing 42)], false)) /\
  list_playlists Debug 4 c95_node_io = Some (Done ([sets; deep "Dawn"%string; two 1; one "Ann"%string "One"%string; mix; LTrack 0 1 (TMissing 42)], false)) /\
  list_playlists Debug 4 c95_entry_io = Some (Done ([sets; deep "Deep"%string; two 1; two 7; mix; LTrack 0 1 (TMissing 42)], false)) /\
  list_playlists Debug 4 c95_title_io = Some (Done ([sets; deep "Deep"%string; two 1; one "Ann"%string "Uno"%string; mix; LTrack 0 1 (TMissing 42)], false)) /\
  list_playlists Debug 4 c95_artist_io = Some (Done ([sets; deep "Deep"%string; two 1; one "Al"%string "One"%string; mix; LTrack 0 1 (TMissing 42)], false)).
Proof. cbv zeta. split; [vm_compute; reflexivity|]. split; [vm_compute; reflexivity|]. split; [vm_compute; reflexivity|]. split; vm_compute; reflexivity. Qed.
(** What the export is made of: the playlist "Deep" has two lines, "Mix" none. *)
Definition c95_export (io : list N) : option (outcome (list fsop)) := match db_open io DbPlain with DOk d => export Debug 4 d (bytes_of "o") (bytes_of "/m") | _ => None end.
Example c95_exports :
  let out (p n : string) (ls : list string) := [MkDirs (bytes_of p); WriteFile (bytes_of n) (flat_map (fun l => bytes_of l ++ [10]) ls)] in
  let mix := out "o"%string "o/Mix.m3u"%string []%string in
  c95_export c94_io = Some (Done (out "o/Sets"%string "o/Sets/Deep.m3u"%string ["/m/b.mp3"; "/m/a.mp3"]%string ++ mix)) /\
  c95_export c95_node_io = Some (Done (out "o/Sets"%string "o/Sets/Dawn.m3u"%string ["/m/b.mp3"; "/m/a.mp3"]%string ++ mix)) /\
  c95_export c95_entry_io = Some (Done (out "o/Sets"%string "o/Sets/Deep.m3u"%string ["/m/b.mp3"; "/m/b.mp3"]%string ++ mix)) /\
  c95_export c95_path_io = Some (Done (out "o/Sets"%string "o/Sets/Deep.m3u"%string ["/m/b.mp3"; "/m/z.mp3"]%string ++ mix)) /\
  c95_export c95_title_io = c95_export c94_io.
Proof. cbv zeta. split; [vm_compute; reflexivity|]. split; [vm_compute; reflexivity|]. split; [vm_compute; reflexivity|]. split; vm_compute; reflexivity. Qed.
Example c95_before : exists ns es tr ts, export_rows Debug c94_io ns es tr /\ playlist_tree 4 ns = Some (Done ts) /\ NoDup (map nd_id ns) /\ NoDup (map fst tr) /\
  ts = [PFolder 2 (bytes_of "Sets") [PPlaylist 5 (bytes_of "Deep")]; PPlaylist 3 (bytes_of "Mix")] /\ es = [mk_pentry 1 41 5; mk_pentry 7 40 5; mk_pentry 1 42 3] /\ tr = [(40, bytes_of "/a.mp3"); (41, bytes_of "/b.mp3")].
Proof.
  assert (forall kd, exists x, snd (iter_rows Debug kd c94_open) = Some x /\ table_in Debug DbPlain c94_header c94_io kd x) as H.
  { intro kd. exact (iter_rows_spec Debug c94_io DbPlain kd c94_open c94_bytes (open_fresh _ _ _ _ c94_opens)). }
  destruct (H KPlaylistTreeNode) as (x1 & E1 & T1), (H KPlaylistEntry) as (x2 & E2 & T2), (H KTrack) as (x3 & E3 & T3). clear H.
  vm_compute in E1. injection E1 as <-. vm_compute in E2. injection E2 as <-. vm_compute in E3. injection E3 as <-.
  exists [mk_node 2 5 0 (DSShort (bytes_of "Deep")); mk_node 0 2 1 (DSShort (bytes_of "Sets")); mk_node 0 3 0 (DSShort (bytes_of "Mix"))], [mk_pentry 1 41 5; mk_pentry 7 40 5; mk_pentry 1 42 3], [(40, bytes_of "/a.mp3"); (41, bytes_of "/b.mp3")].
  eexists. split.
  { eexists c94_open, _, _, _, [(40, DSShort (bytes_of "/a.mp3")); (41, DSShort (bytes_of "/b.mp3"))]. split; [exact c94_bytes|]. split; [exact c94_opens|].
    split; [exact T1|]. split; [repeat (apply Forall2_cons; [vm_compute; reflexivity|]); apply Forall2_nil|]. split; [exact T2|]. split; [repeat (apply Forall2_cons; [vm_compute; reflexivity|]); apply Forall2_nil|].
    split; [exact T3|]. split; [repeat (apply Forall2_cons; [vm_compute; reflexivity|]); apply Forall2_nil|]. repeat (apply Forall2_cons; [split; vm_compute; reflexivity|]). apply Forall2_nil. }
  split; [vm_compute; reflexivity|]. cbn [map nd_id fst]. split; [repeat (apply NoDup_cons; [cbn [In]; intuition discriminate|]); apply NoDup_nil|]. split; [repeat (apply NoDup_cons; [cbn [In]; intuition discriminate|]); apply NoDup_nil|]. split; [reflexivity|]. split; reflexivity.
Qed.
