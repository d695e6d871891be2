(** * Property C94: a row inserted into the database and the listing of the playlists *)
From Coq Require Import NArith ZArith List Bool Lia Sorted Relations String.
From Coq Require Import ZifyBool ZifyNat ZifyN.
From Verif Require Import Base BaseFacts Segs Utf Str StrFacts StrGood Schema SchemaFacts Oa OaFacts OaSpec Rows RowFacts RowSpec Page BitFacts PageFacts PageRw PageSpec Alloc AllocFacts AllocSpec
  Db DbFacts DbFlush DbFresh RowShape Reread Progress Insert Session Dump DumpFacts Setting Device DeviceFacts DeviceTree Cli CliFacts CliList Listing Compose Graft ComposeList Check
  PropListing PropCompose PropGraft PropSession PropCheck.
Import ListNotations.
Local Close Scope string_scope.
Open Scope N_scope.

(** ** Vocabulary *)
(** The rows of the four tables the listing is made of *)
Definition listing_rows (b : build) (io : list N) (ns : list node) (arts : list (N * dstr)) (trs : list (N * (N * dstr))) (es : list pentry) : Prop :=
  exists d rn ra rt re, bytes_ok io /\ db_open io DbPlain = DOk d /\
    table_in b DbPlain (db_header d) io KPlaylistTreeNode (DOk rn) /\ Forall2 (fun r x => node_of_row r = Some x) rn ns /\
    table_in b DbPlain (db_header d) io KArtist (DOk ra) /\ Forall2 (fun r x => artist_of_row r = Some x) ra arts /\
    table_in b DbPlain (db_header d) io KTrack (DOk rt) /\ Forall2 (fun r x => listed_track_of_row r = Some x) rt trs /\
    table_in b DbPlain (db_header d) io KPlaylistEntry (DOk re) /\ Forall2 (fun r x => pentry_of_row r = Some x) re es.
(** A program opens the file, loads a page of table [kd] and inserts row [r] where it fits, and saves.  The other tables of the listing have other pages. *)
Definition inserted (b : build) (io : list N) (kd : rkind) (r : row) (io' : list N) : Prop :=
  exists d G A i s n, db_open io DbPlain = DOk d /\ stores b d G A /\
    (forall kd', In kd' listed_tables -> exists l, chain A (db_header d) kd' l /\ (In i l <-> kd' = kd)) /\
    A i = Some s /\ G i = GGrow /\ sh_type s = PT kd /\ op_fine b (PT kd) (n, Some r) /\ (n + 3) / 4 * 4 + 6 <= sh_free s /\
    session b DbPlain io [(i, [(n, Some r)])] io'.
(** The nodes below the root with their levels, in the order of C62 *)
Definition ordered (ns : list node) (v : list (nat * node)) : Prop :=
  NoDup (map snd v) /\
  (forall n, In n (map snd v) <-> In n ns /\ clos_refl_trans_1n N (under ns) 0 (nd_parent n)) /\
  (forall k n, In (k, n) v -> path_len ns k 0 (nd_parent n)) /\
  (forall k n l1 l2, v = l1 ++ (k, n) :: l2 -> (k = 0%nat /\ nd_parent n = 0) \/
     exists p, last_of (fun y => (fst y < k)%nat) l1 p /\ S (fst p) = k /\ nd_id (snd p) = nd_parent n) /\
  (forall p, clos_refl_trans_1n N (under ns) 0 p -> filter (fun n => nd_parent n =? p) (map snd v) = filter (fun n => nd_parent n =? p) ns).
Definition distinct (ns : list node) : Prop := NoDup (map nd_id ns) /\ ~ In 0 (map nd_id ns).
(** The listing has the lines [f] for the nodes [v]. *)
Definition lists (b : build) (io : list N) (ns : list node) (v : list (nat * node)) (f : nat * node -> list item) : Prop :=
  forall depth, (List.length ns < depth)%nat -> list_playlists b depth io = Some (Done (shown (flat_map f v))).

(** ** Lemmas *)
Definition items (es : list pentry) (arts : list (N * dstr)) (trs : list (N * (N * dstr))) : nat * node -> list item := row_items (entries_map es) (insert_all arts) (insert_all trs).
Lemma items_lines es arts trs y : node_lines es arts trs y (items es arts trs y).
Proof. apply row_items_lines. Qed.
Lemma items_eq es arts trs y l : node_lines es arts trs y l -> items es arts trs y = l.
Proof. intro H. exact (c76_unique es arts trs y _ _ (items_lines es arts trs y) H). Qed.
Lemma lists_rows b io ns arts trs es v : listing_rows b io ns arts trs es -> distinct ns -> visit (S (List.length ns)) ns 0 0 = Some v -> lists b io ns v (items es arts trs).
Proof.
  intros (d & rn & ra & rt & re & HB & HO & Tn & Fn & Ta & Fa & Tt & Ft & Te & Fe) D V depth L.
  destruct (list_rows b io d HB HO) as [_ H]. destruct (H rn ra rt re Tn Ta Tt Te) as (ns' & arts' & trs' & es' & F1 & F2 & F3 & F4 & E).
  rewrite (forall2_some _ _ _ _ Fn F1), (forall2_some _ _ _ _ Fa F2), (forall2_some _ _ _ _ Ft F3), (forall2_some _ _ _ _ Fe F4) in E.
  rewrite E. unfold items. rewrite (print_visit _ _ _ _ depth 0 0%nat v); [reflexivity|]. now apply visit_stable with (S (List.length ns)).
Qed.
Lemma ordered_visit ns : distinct ns -> exists v, visit (S (List.length ns)) ns 0 0 = Some v /\ ordered ns v.
Proof. intro D. destruct (list_complete_visit [] [] [] ns D) as (v & V & _ & H). now exists v. Qed.
(** One row more in one table, the others as they were *)
Lemma inserted_rows b io kd r io' ns arts trs es : listing_rows b io ns arts trs es -> inserted b io kd r io' -> is_variant kd r = true ->
  (forall nd, kd = KPlaylistTreeNode -> node_of_row r = Some nd -> exists ns1 ns2, ns = ns1 ++ ns2 /\ listing_rows b io' (ns1 ++ nd :: ns2) arts trs es) /\
  (forall a, kd = KArtist -> artist_of_row r = Some a -> exists l1 l2, arts = l1 ++ l2 /\ listing_rows b io' ns (l1 ++ a :: l2) trs es) /\
  (forall t, kd = KTrack -> listed_track_of_row r = Some t -> exists l1 l2, trs = l1 ++ l2 /\ listing_rows b io' ns arts (l1 ++ t :: l2) es) /\
  (forall e, kd = KPlaylistEntry -> pentry_of_row r = Some e -> exists l1 l2, es = l1 ++ l2 /\ listing_rows b io' ns arts trs (l1 ++ e :: l2)).
Proof.
  intros (d & rn & ra & rt & re & HB & HO & Tn & Fn & Ta & Fa & Tt & Ft & Te & Fe) (d0 & G & A & i & s & n & HO0 & HST & HC & EA & EG & ETY & HFI & EF & HSE) VR.
  assert (d0 = d) as -> by congruence. clear HO0.
  destruct (one_session b io d G A io' i s n r kd HO HST EA EG ETY HFI EF HSE) as (d' & O' & H' & B' & HN & HY).
  assert (forall kd' rows, In kd' listed_tables -> kd' <> kd -> table_in b DbPlain (db_header d) io kd' (DOk rows) ->
    exists mid rows', Forall2 same_values mid rows /\ Forall2 same_values mid rows' /\ table_in b DbPlain (db_header d') io' kd' (DOk rows')) as HN'.
  { intros kd' rows I NE T. destruct (HC kd' I) as (l & C & II). rewrite H'. apply (HN kd' l rows C); [tauto|exact T]. }
  assert (forall rows, In kd listed_tables -> table_in b DbPlain (db_header d) io kd (DOk rows) ->
    exists R1 R2 rows', Forall2 same_values (R1 ++ R2) rows /\ Forall2 same_values (R1 ++ r :: R2) rows' /\ table_in b DbPlain (db_header d') io' kd (DOk rows')) as HY'.
  { intros rows I T. destruct (HC kd I) as (l & C & II). rewrite H'. destruct (HY kd l rows C (proj2 II eq_refl) VR T) as (R1 & R2 & rows' & _ & F1 & F2 & T'). now exists R1, R2, rows'. }
  clear HN HY HC.
  assert (In KPlaylistTreeNode listed_tables /\ In KArtist listed_tables /\ In KTrack listed_tables /\ In KPlaylistEntry listed_tables) as (I1 & I2 & I3 & I4) by (cbn; tauto).
  split; [|split; [|split]].
  - intros nd -> E. destruct (HY' rn I1 Tn) as (R1 & R2 & rn' & F1 & F2 & Tn'). destruct (same_more node_of_row R1 r R2 rn rn' ns nd same_node F1 F2 E Fn) as (ns1 & ns2 & EN & _ & Fn').
    destruct (HN' KArtist ra I2) as (ma & ra' & A1 & A2 & Ta'); [easy|easy|]. destruct (HN' KTrack rt I3) as (mt & rt' & T1 & T2 & Tt'); [easy|easy|]. destruct (HN' KPlaylistEntry re I4) as (me & re' & E1 & E2 & Te'); [easy|easy|].
    exists ns1, ns2. split; [easy|]. exists d', rn', ra', rt', re'. do 4 (split; [easy|]). split; [easy|]. split; [exact (same_both _ _ _ _ _ same_artist A1 A2 Fa)|]. split; [easy|].
    split; [exact (same_both _ _ _ _ _ same_listed_track T1 T2 Ft)|]. split; [easy|]. exact (same_both _ _ _ _ _ same_pentry E1 E2 Fe).
  - intros a -> E. destruct (HY' ra I2 Ta) as (R1 & R2 & ra' & F1 & F2 & Ta'). destruct (same_more artist_of_row R1 r R2 ra ra' arts a same_artist F1 F2 E Fa) as (l1 & l2 & EN & _ & Fa').
    destruct (HN' KPlaylistTreeNode rn I1) as (mn & rn' & N1 & N2 & Tn'); [easy|easy|]. destruct (HN' KTrack rt I3) as (mt & rt' & T1 & T2 & Tt'); [easy|easy|]. destruct (HN' KPlaylistEntry re I4) as (me & re' & E1 & E2 & Te'); [easy|easy|].
    exists l1, l2. split; [easy|]. exists d', rn', ra', rt', re'. do 3 (split; [easy|]). split; [exact (same_both _ _ _ _ _ same_node N1 N2 Fn)|]. do 3 (split; [easy|]).
    split; [exact (same_both _ _ _ _ _ same_listed_track T1 T2 Ft)|]. split; [easy|]. exact (same_both _ _ _ _ _ same_pentry E1 E2 Fe).
  - intros t -> E. destruct (HY' rt I3 Tt) as (R1 & R2 & rt' & F1 & F2 & Tt'). destruct (same_more listed_track_of_row R1 r R2 rt rt' trs t same_listed_track F1 F2 E Ft) as (l1 & l2 & EN & _ & Ft').
    destruct (HN' KPlaylistTreeNode rn I1) as (mn & rn' & N1 & N2 & Tn'); [easy|easy|]. destruct (HN' KArtist ra I2) as (ma & ra' & A1 & A2 & Ta'); [easy|easy|]. destruct (HN' KPlaylistEntry re I4) as (me & re' & E1 & E2 & Te'); [easy|easy|].
    exists l1, l2. split; [easy|]. exists d', rn', ra', rt', re'. do 3 (split; [easy|]). split; [exact (same_both _ _ _ _ _ same_node N1 N2 Fn)|]. split; [easy|]. split; [exact (same_both _ _ _ _ _ same_artist A1 A2 Fa)|].
    do 3 (split; [easy|]). exact (same_both _ _ _ _ _ same_pentry E1 E2 Fe).
  - intros e -> E. destruct (HY' re I4 Te) as (R1 & R2 & re' & F1 & F2 & Te'). destruct (same_more pentry_of_row R1 r R2 re re' es e same_pentry F1 F2 E Fe) as (l1 & l2 & EN & _ & Fe').
    destruct (HN' KPlaylistTreeNode rn I1) as (mn & rn' & N1 & N2 & Tn'); [easy|easy|]. destruct (HN' KArtist ra I2) as (ma & ra' & A1 & A2 & Ta'); [easy|easy|]. destruct (HN' KTrack rt I3) as (mt & rt' & T1 & T2 & Tt'); [easy|easy|].
    exists l1, l2. split; [easy|]. exists d', rn', ra', rt', re'. do 3 (split; [easy|]). split; [exact (same_both _ _ _ _ _ same_node N1 N2 Fn)|]. split; [easy|]. split; [exact (same_both _ _ _ _ _ same_artist A1 A2 Fa)|].
    split; [easy|]. split; [exact (same_both _ _ _ _ _ same_listed_track T1 T2 Ft)|]. now split.
Qed.
Lemma variant_of kd r : kd = KPlaylistTreeNode /\ node_of_row r <> None \/ kd = KArtist /\ artist_of_row r <> None \/ kd = KTrack /\ listed_track_of_row r <> None \/ kd = KPlaylistEntry /\ pentry_of_row r <> None -> is_variant kd r = true.
Proof. destruct r as [k vs oc|]; [|cbn; tauto]. intros [[-> H]|[[-> H]|[[-> H]|[-> H]]]]; destruct k; easy. Qed.

(** ** The theorems *)
(** C94.  One more entry [x] of playlist [id]: the lines of all nodes with another id are as before; a node with this id, if there is one below the root, has one more line, for
    track [t], behind its entries with smaller and before those with larger numbers. *)
Theorem c94_entry : forall b io r io' ns arts trs es x t id, listing_rows b io ns arts trs es -> inserted b io KPlaylistEntry r io' -> pentry_of_row r = Some (mk_pentry x t id) ->
  distinct ns -> Forall (fun e => ~ (pe_playlist e = id /\ pe_index e = x)) es ->
  exists v f f', ordered ns v /\ (forall y, node_lines es arts trs y (f y)) /\ lists b io ns v f /\ lists b io' ns v f' /\
    (forall y, nd_id (snd y) <> id -> f' y = f y) /\
    (forall y, nd_id (snd y) = id -> exists ps1 ps2 first ls1 it ls2, f y = first :: ls1 ++ ls2 /\ f' y = first :: ls1 ++ it :: ls2 /\ track_line arts trs (fst y) x t it /\
       Forall2 (fun p it => track_line arts trs (fst y) (fst p) (snd p) it) ps1 ls1 /\ Forall (fun p => fst p < x) ps1 /\
       Forall2 (fun p it => track_line arts trs (fst y) (fst p) (snd p) it) ps2 ls2 /\ Forall (fun p => x < fst p) ps2).
Proof.
  intros b io r io' ns arts trs es x t id HL HI HE D HF. destruct (inserted_rows _ _ _ _ _ _ _ _ _ HL HI) as (_ & _ & _ & H); [apply variant_of; rewrite HE; do 3 right; easy|].
  destruct (H _ eq_refl HE) as (es1 & es2 & -> & HL'). destruct (ordered_visit ns D) as (v & V & O).
  exists v, (items (es1 ++ es2) arts trs), (items (es1 ++ mk_pentry x t id :: es2) arts trs). split; [exact O|]. split; [apply items_lines|]. split; [now apply lists_rows|]. split; [now apply lists_rows|]. split.
  - intros y NE. apply items_eq. apply lines_other; [exact NE|apply items_lines].
  - intros [k n] E. cbn [fst snd] in *. destruct (lines_insert es1 es2 x id arts trs k n HF E) as (ps1 & ps2 & ls1 & ls2 & P1 & P2 & L1 & L2 & N1 & NT). destruct (NT t) as (it & LI & N2).
    exists ps1, ps2. eexists. exists ls1, it, ls2. split; [exact (items_eq _ _ _ _ _ N1)|]. split; [exact (items_eq _ _ _ _ _ N2)|]. easy.
Qed.
Print Assumptions c94_entry.
(** One more node, whose id is no other's and the parent of none: the listing has its lines in addition if it is below the root, at its place in the order;
    no other line is new, gone or moved. *)
Theorem c94_node : forall b io r io' ns arts trs es nd, listing_rows b io ns arts trs es -> inserted b io KPlaylistTreeNode r io' -> node_of_row r = Some nd ->
  distinct ns -> Forall (fun m => nd_parent m <> nd_id nd /\ nd_id m <> nd_id nd) ns -> nd_parent nd <> nd_id nd -> nd_id nd <> 0 ->
  exists ns1 ns2 v v' f, ns = ns1 ++ ns2 /\ ordered ns v /\ ordered (ns1 ++ nd :: ns2) v' /\ v = filter (fun y => negb (nd_id (snd y) =? nd_id nd)) v' /\
    (forall y, node_lines es arts trs y (f y)) /\ lists b io ns v f /\ lists b io' (ns1 ++ nd :: ns2) v' f.
Proof.
  intros b io r io' ns arts trs es nd HL HI HE D HF HP HZ. destruct (inserted_rows _ _ _ _ _ _ _ _ _ HL HI) as (H & _); [apply variant_of; rewrite HE; now left|].
  destruct (H _ eq_refl HE) as (ns1 & ns2 & -> & HL').
  assert (distinct (ns1 ++ nd :: ns2)) as D'.
  { destruct D as [D1 D2]. unfold distinct. rewrite map_app in *. cbn [map]. rewrite in_app_iff in *. cbn [In]. rewrite Forall_forall in HF. split; [|intuition].
    apply NoDup_Add with (a := nd_id nd) (l := map nd_id ns1 ++ map nd_id ns2); [apply Add_app|]. split; [easy|]. rewrite <- map_app. intro I. apply in_map_iff in I as (m & E & I). now apply (HF m I). }
  destruct (ordered_visit _ D) as (v & V & O). destruct (ordered_visit _ D') as (v' & V' & O').
  assert (v = filter (fun y => negb (nd_id (snd y) =? nd_id nd)) v') as EV.
  { destruct (visit_leaf ns1 nd ns2 HP) with (depth := S (List.length (ns1 ++ ns2))) (id := 0) (level := 0%nat) (v := v) as (w & W & EW); [eapply Forall_impl; [|exact HF]; now intros m [H1 _]|eapply Forall_impl; [|exact HF]; now intros m [_ H1]|exact V|].
    rewrite app_length in W. rewrite app_length in V'. cbn [List.length] in V'. replace (S (List.length ns1 + S (List.length ns2))) with (S (S (List.length ns1 + List.length ns2))) in V' by lia. congruence. }
  exists ns1, ns2, v, v', (items es arts trs). split; [easy|]. split; [exact O|]. split; [exact O'|]. split; [exact EV|]. split; [apply items_lines|]. split; now apply lists_rows.
Qed.
Print Assumptions c94_node.
Lemma get_insert {V} (l1 l2 : list (N * V)) k v u : ~ In k (map fst (l1 ++ l2)) -> mm_get (insert_all (l1 ++ (k, v) :: l2)) u = if u =? k then Some v else mm_get (insert_all (l1 ++ l2)) u.
Proof.
  intro NI. destruct (N.eqb_spec u k) as [->|NE].
  - apply insert_all_get. rewrite (last_of_only (fun x => fst x = k)); [easy|easy|]. apply Forall_forall. intros x I E. apply NI. rewrite <- E. now apply in_map.
  - destruct (mm_get (insert_all (l1 ++ l2)) u) as [w|] eqn:E.
    + apply insert_all_get in E. apply insert_all_get. rewrite last_of_middle; [easy|]. cbn [fst]. congruence.
    + destruct (mm_get (insert_all (l1 ++ (k, v) :: l2)) u) as [w|] eqn:E'; [|easy]. apply insert_all_get in E'. rewrite last_of_middle in E' by (cbn [fst]; congruence). apply insert_all_get in E'. congruence.
Qed.
(** One more track with a new id: lines that said that there is no such track now say its title, and the artist if there is one; the other lines are as before. *)
Inductive titled (arts : list (N * dstr)) (k : nat) (x a : N) (title : dstr) : item -> Prop :=
| titled_by name : last_of (fun y => fst y = a) arts (a, name) -> titled arts k x a title ([name; title], LTrack k x (TFound name title))
| titled_unknown : ~ In a (map fst arts) -> titled arts k x a title ([title], LTrack k x (TNoArtist a title)).
Theorem c94_track : forall b io r io' ns arts trs es t a title, listing_rows b io ns arts trs es -> inserted b io KTrack r io' -> listed_track_of_row r = Some (t, (a, title)) ->
  distinct ns -> ~ In t (map fst trs) ->
  exists v f f', ordered ns v /\ (forall y, node_lines es arts trs y (f y)) /\ lists b io ns v f /\ lists b io' ns v f' /\
    forall y, exists first ls ls', f y = first :: ls /\ f' y = first :: ls' /\
      Forall2 (fun it it' => it' = it /\ (forall x, snd it <> LTrack (fst y) x (TMissing t)) \/ exists x, it = ([], LTrack (fst y) x (TMissing t)) /\ titled arts (fst y) x a title it') ls ls'.
Proof.
  intros b io r io' ns arts trs es t a title HL HI HE D NI. destruct (inserted_rows _ _ _ _ _ _ _ _ _ HL HI) as (_ & _ & H & _); [apply variant_of; rewrite HE; do 2 right; now left|].
  destruct (H _ eq_refl HE) as (l1 & l2 & -> & HL'). destruct (ordered_visit ns D) as (v & V & O).
  exists v, (items es arts (l1 ++ l2)), (items es arts (l1 ++ (t, (a, title)) :: l2)). split; [exact O|]. split; [apply items_lines|]. split; [now apply lists_rows|]. split; [now apply lists_rows|].
  intros [k n]. eexists _, _, _. split; [reflexivity|]. split; [reflexivity|]. cbn [fst]. induction (match mm_get (entries_map es) (nd_id (snd (k, n))) with Some l => l | None => [] end) as [|[x u] ps IH]; [constructor|].
  cbn [map fst snd]. constructor; [|exact IH]. unfold track_item. rewrite (get_insert l1 l2 t (a, title) u NI). destruct (N.eqb_spec u t) as [->|NE].
  - right. exists x. rewrite (proj2 (insert_all_none (l1 ++ l2) t) NI). split; [easy|]. destruct (mm_get (insert_all arts) a) as [name|] eqn:E; [apply titled_by; now apply insert_all_get|apply titled_unknown; now apply insert_all_none].
  - left. split; [easy|]. destruct (mm_get (insert_all (l1 ++ l2)) u) as [[a' ti]|]; [destruct (mm_get (insert_all arts) a')|]; cbn [snd]; intro x'; congruence.
Qed.
Print Assumptions c94_track.
(** One more artist with a new id: lines that said that there is no such artist now say the name; the other lines are as before. *)
Theorem c94_artist : forall b io r io' ns arts trs es a name, listing_rows b io ns arts trs es -> inserted b io KArtist r io' -> artist_of_row r = Some (a, name) ->
  distinct ns -> ~ In a (map fst arts) ->
  exists v f f', ordered ns v /\ (forall y, node_lines es arts trs y (f y)) /\ lists b io ns v f /\ lists b io' ns v f' /\
    forall y, exists first ls ls', f y = first :: ls /\ f' y = first :: ls' /\
      Forall2 (fun it it' => it' = it /\ (forall x title, snd it <> LTrack (fst y) x (TNoArtist a title)) \/
        exists x title, it = ([title], LTrack (fst y) x (TNoArtist a title)) /\ it' = ([name; title], LTrack (fst y) x (TFound name title))) ls ls'.
Proof.
  intros b io r io' ns arts trs es a name HL HI HE D NI. destruct (inserted_rows _ _ _ _ _ _ _ _ _ HL HI) as (_ & H & _); [apply variant_of; rewrite HE; right; now left|].
  destruct (H _ eq_refl HE) as (l1 & l2 & -> & HL'). destruct (ordered_visit ns D) as (v & V & O).
  exists v, (items es (l1 ++ l2) trs), (items es (l1 ++ (a, name) :: l2) trs). split; [exact O|]. split; [apply items_lines|]. split; [now apply lists_rows|]. split; [now apply lists_rows|].
  intros [k n]. eexists _, _, _. split; [reflexivity|]. split; [reflexivity|]. cbn [fst]. induction (match mm_get (entries_map es) (nd_id (snd (k, n))) with Some l => l | None => [] end) as [|[x u] ps IH]; [constructor|].
  cbn [map fst snd]. constructor; [|exact IH]. unfold track_item. destruct (mm_get (insert_all trs) u) as [[a' ti]|]; [|left; split; [easy|]; cbn [snd]; intros; congruence].
  rewrite (get_insert l1 l2 a name a' NI). destruct (N.eqb_spec a' a) as [->|NE].
  - right. exists x, ti. now rewrite (proj2 (insert_all_none (l1 ++ l2) a) NI).
  - left. split; [easy|]. destruct (mm_get (insert_all (l1 ++ l2)) a'); cbn [snd]; intros x' ti'; congruence.
Qed.
Print Assumptions c94_artist.
(** In all four cases the tables then have the new row in addition, so the theorems apply again. *)
Theorem c94_rows : forall b io kd r io' ns arts trs es, listing_rows b io ns arts trs es -> inserted b io kd r io' ->
  (forall nd, kd = KPlaylistTreeNode -> node_of_row r = Some nd -> exists ns1 ns2, ns = ns1 ++ ns2 /\ listing_rows b io' (ns1 ++ nd :: ns2) arts trs es) /\
  (forall a, kd = KArtist -> artist_of_row r = Some a -> exists l1 l2, arts = l1 ++ l2 /\ listing_rows b io' ns (l1 ++ a :: l2) trs es) /\
  (forall t, kd = KTrack -> listed_track_of_row r = Some t -> exists l1 l2, trs = l1 ++ l2 /\ listing_rows b io' ns arts (l1 ++ t :: l2) es) /\
  (forall e, kd = KPlaylistEntry -> pentry_of_row r = Some e -> exists l1 l2, es = l1 ++ l2 /\ listing_rows b io' ns arts trs (l1 ++ e :: l2)).
Proof.
  intros b io kd r io' ns arts trs es HL HI. split; [|split; [|split]]; intros x E1 E2; (destruct (inserted_rows _ _ _ _ _ _ _ _ _ HL HI) as (H1 & H2 & H3 & H4); [apply variant_of; rewrite E2; intuition discriminate|]).
  - now apply H1. - now apply H2. - now apply H3. - now apply H4.
Qed.
Print Assumptions c94_rows.
(** What [inserted] asks of the file can be computed: the check of C92 delivers pages for the four tables, and [i] is one of them that may take rows. *)
Theorem c94_checked : forall b io d kd r i n s l io', bytes_ok io -> len io < 2 ^ 64 - 1 -> db_open io DbPlain = DOk d -> 28 + 16 * len (dh_tables (db_header d)) <= dh_page_size (db_header d) ->
  (forall kd', In kd' listed_tables -> table_list b d kd' <> None) -> table_list b d kd = Some l -> In i l -> survey b d i = Some s -> survey_grade b d i = GGrow ->
  op_fine b (PT kd) (n, Some r) -> (n + 3) / 4 * 4 + 6 <= sh_free s -> session b DbPlain io [(i, [(n, Some r)])] io' -> inserted b io kd r io'.
Proof.
  intros b io d kd r i n s l io' HB HL HO HH HT EL II ES EG HF HR HS. exists d, (survey_grade b d), (survey b d), i, s, n. split; [exact HO|].
  split; [apply (open_stores b io DbPlain); try easy; intros j t; now apply (survey_good b DbPlain io)|].
  apply (c92_list b DbPlain io d kd l HB HL HO) in EL as HC. destruct HC as (j & tb & FT & HP & HY).
  assert (forall kd' l', table_list b d kd' = Some l' -> In i l' -> sh_type s = PT kd') as TY.
  { intros kd' l' E I. apply (c92_list b DbPlain io d kd' l' HB HL HO) in E as (_ & _ & _ & _ & H). destruct (H i I) as (p & CP & TP). unfold survey in ES. rewrite CP in ES. cbn [option_map] in ES. injection ES as <-. exact TP. }
  split; [|split; [exact ES|split; [exact EG|split; [now apply (TY kd l)|easy]]]].
  intros kd' I. destruct (table_list b d kd') as [l'|] eqn:E'; [|now destruct (HT kd' I)]. exists l'. split.
  - apply (c92_list b DbPlain io d kd' l' HB HL HO) in E' as (j' & tb' & FT' & HP' & _). now exists j', tb'.
  - split; [|intros ->; congruence]. intro I'. pose proof (TY _ _ E' I') as T1. pose proof (TY _ _ EL II) as T2. congruence.
Qed.
Print Assumptions c94_checked.

(** ** Example: an entry, a playlist, a track and an artist, each inserted into the same database *)
Definition c94_header : dbhdr := mk_dbhdr 600 4 5 0 7 [mk_table (PT KTrack) 9 3 3; mk_table (PT KArtist) 9 4 4; mk_table (PT KPlaylistTreeNode) 9 1 1; mk_table (PT KPlaylistEntry) 9 2 2].
Definition c94_new : list N := Eval vm_compute in match flush Debug (mk_db (repeat 0 3000) DbPlain c94_header
  [Some (c88_empty 1 KPlaylistTreeNode); Some (c88_empty 2 KPlaylistEntry); Some (c88_empty 3 KTrack); Some (c88_empty 4 KArtist)]) with DOk d => db_io d | _ => [] end.
Definition c94_filled : list edit :=
  [(1, map sized [c76_node 2 5 0 "Deep"; c76_node 0 2 1 "Sets"; c76_node 0 3 0 "Mix"]); (3, map sized [c76_track 40 7 "One" "/a.mp3"; c76_track 41 8 "Two" "/b.mp3"]);
   (2, map sized [entry_row 1 41 5; entry_row 7 40 5; entry_row 1 42 3]); (4, map sized [c76_artist 7 "Ann"])].
Definition c94_io : list N := Eval vm_compute in match do_session Debug c94_new c94_filled with Some io => io | None => [] end.
Definition c94_open : database := mk_db c94_io DbPlain c94_header [None; None; None; None].
Definition c94_after (i : N) (r : row) : list N := match do_session Debug c94_io [(i, [sized r])] with Some io => io | None => [] end.
Lemma c94_opens : db_open c94_io DbPlain = DOk c94_open.
Proof. vm_compute. reflexivity. Qed.
Lemma c94_bytes : bytes_ok c94_io.
Proof. apply Forall_forall. intros x Hx. assert (forallb (fun x => x <? 256) c94_io = true) as E by (vm_compute; reflexivity). rewrite forallb_forall in E. specialize (E x Hx). cbv beta in E. lia. Qed.
Example c94_before : exists ns arts trs es, listing_rows Debug c94_io ns arts trs es /\ distinct ns /\
  ns = [mk_node 2 5 0 (DSShort (bytes_of "Deep")); mk_node 0 2 1 (DSShort (bytes_of "Sets")); mk_node 0 3 0 (DSShort (bytes_of "Mix"))] /\ arts = [(7, DSShort (bytes_of "Ann"))] /\
  trs = [(40, (7, DSShort (bytes_of "One"))); (41, (8, DSShort (bytes_of "Two")))] /\ es = [mk_pentry 1 41 5; mk_pentry 7 40 5; mk_pentry 1 42 3].
Proof.
  assert (forall kd, exists x, snd (iter_rows Debug kd c94_open) = Some x /\ table_in Debug DbPlain c94_header c94_io kd x) as H.
  { intro kd. exact (iter_rows_spec Debug c94_io DbPlain kd c94_open c94_bytes (open_fresh _ _ _ _ c94_opens)). }
  destruct (H KPlaylistTreeNode) as (x1 & E1 & T1), (H KArtist) as (x2 & E2 & T2), (H KTrack) as (x3 & E3 & T3), (H KPlaylistEntry) as (x4 & E4 & T4). clear H.
  vm_compute in E1. injection E1 as <-. vm_compute in E2. injection E2 as <-. vm_compute in E3. injection E3 as <-. vm_compute in E4. injection E4 as <-.
  eexists _, _, _, _. split.
  { eexists c94_open, _, _, _, _. split; [exact c94_bytes|]. split; [exact c94_opens|]. split; [exact T1|]. split; [repeat (apply Forall2_cons; [vm_compute; reflexivity|]); apply Forall2_nil|].
    split; [exact T2|]. split; [repeat (apply Forall2_cons; [vm_compute; reflexivity|]); apply Forall2_nil|]. split; [exact T3|]. split; [repeat (apply Forall2_cons; [vm_compute; reflexivity|]); apply Forall2_nil|].
    split; [exact T4|]. repeat (apply Forall2_cons; [vm_compute; reflexivity|]); apply Forall2_nil. }
  split; [|repeat split; reflexivity]. unfold distinct. cbn [map nd_id In]. split; [|intuition discriminate]. repeat (apply NoDup_cons; [cbn [In]; intuition discriminate|]). apply NoDup_nil.
Qed.
Lemma c94_inserted kd r i l s n : table_list Debug c94_open kd = Some l -> In i l -> survey Debug c94_open i = Some s -> survey_grade Debug c94_open i = GGrow -> sized r = (n, Some r) ->
  (n + 3) / 4 * 4 + 6 <= sh_free s -> do_session Debug c94_io [(i, [sized r])] <> None -> op_fine Debug (PT kd) (sized r) -> inserted Debug c94_io kd r (c94_after i r).
Proof.
  intros HT II HS HG EN HR HD HF. apply (c94_checked Debug c94_io c94_open kd r i n s l); [exact c94_bytes|vm_compute; reflexivity|exact c94_opens|vm_compute; discriminate| |exact HT|exact II|exact HS|exact HG|now rewrite <- EN|exact HR|].
  - intros kd' [<-|[<-|[<-|[<-|[]]]]]; vm_compute; discriminate.
  - rewrite <- EN. apply do_session_ok. unfold c94_after. now destruct (do_session Debug c94_io [(i, [sized r])]).
Qed.
Example c94_example :
  inserted Debug c94_io KPlaylistEntry (entry_row 4 40 5) (c94_after 2 (entry_row 4 40 5)) /\ inserted Debug c94_io KPlaylistTreeNode (c76_node 2 9 0 "Late") (c94_after 1 (c76_node 2 9 0 "Late")) /\
  inserted Debug c94_io KTrack (c76_track 42 8 "Six" "/c.mp3") (c94_after 3 (c76_track 42 8 "Six" "/c.mp3")) /\ inserted Debug c94_io KArtist (c76_artist 8 "Bob") (c94_after 4 (c76_artist 8 "Bob")).
Proof.
  repeat split; (eapply c94_inserted; [vm_compute; reflexivity|now left|vm_compute; reflexivity|vm_compute; reflexivity|vm_compute; reflexivity|vm_compute; discriminate|vm_compute; discriminate|]).
  all: (eapply c88_fine; [|easy|easy|reflexivity|vm_compute; reflexivity|vm_compute; discriminate]).
  all: split; [repeat constructor; cbn; try lia|cbn; try exact I].
  all: try easy.
  all: split; [reflexivity|]; split; [|easy].
  all: repeat (apply Forall_cons || apply Forall_nil); (split; [|split; [intros v E; discriminate E|exact I]]); (split; [vm_compute; discriminate|repeat constructor; lia]).
Qed.
Example c94_listings :
  let deep := LNode 1 false (DSShort (bytes_of "Deep")) in let sets := LNode 0 true (DSShort (bytes_of "Sets")) in let mix := LNode 0 false (DSShort (bytes_of "Mix")) in
  let one x := LTrack 1 x (TFound (DSShort (bytes_of "Ann")) (DSShort (bytes_of "One"))) in let two := LTrack 1 1 (TNoArtist 8 (DSShort (bytes_of "Two"))) in
  list_playlists Debug 4 c94_io = Some (Done ([sets; deep; two; one 7; mix; LTrack 0 1 (TMissing 42)], false)) /\
  list_playlists Debug 4 (c94_after 2 (entry_row 4 40 5)) = Some (Done ([sets; deep; two; one 4; one 7; mix; LTrack 0 1 (TMissing 42)], false)) /\
  list_playlists Debug 5 (c94_after 1 (c76_node 2 9 0 "Late")) = Some (Done ([sets; deep; two; one 7; LNode 1 false (DSShort (bytes_of "Late")); mix; LTrack 0 1 (TMissing 42)], false)) /\
  list_playlists Debug 4 (c94_after 3 (c76_track 42 8 "Six" "/c.mp3")) = Some (Done ([sets; deep; two; one 7; mix; LTrack 0 1 (TNoArtist 8 (DSShort (bytes_of "Six")))], false)) /\
  list_playlists Debug 4 (c94_after 4 (c76_artist 8 "Bob")) = Some (Done ([sets; deep; LTrack 1 1 (TFound (DSShort (bytes_of "Bob")) (DSShort (bytes_of "Two"))); one 7; mix; LTrack 0 1 (TMissing 42)], false)).
Proof. cbv zeta. split; [vm_compute; reflexivity|]. split; [vm_compute; reflexivity|]. split; [vm_compute; reflexivity|]. split; vm_compute; reflexivity. Qed.
