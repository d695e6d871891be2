(** * From changes to the database to the exported playlists *)
From Coq Require Import NArith ZArith List Bool Lia Sorted.
From Coq Require Import ZifyBool ZifyNat ZifyN.
From Verif Require Import Base BaseFacts Segs Str StrFacts StrGood Schema SchemaFacts Oa Rows RowFacts RowSpec Page PageFacts PageRw PageSpec Alloc AllocFacts AllocSpec Db DbFacts DbFlush DbFresh RowShape
  Reread Progress Insert Session Dump DumpFacts Setting Device DeviceFacts DeviceTree Cli CliFacts CliList Listing.
Import ListNotations.
Open Scope N_scope.

(** ** An export that can be planned *)
Lemma decode_tracks_of l tr : Forall2 (fun x y => fst x = fst y /\ dstr_into_string (snd x) = inl (snd y)) l tr -> decode_tracks l = Some tr.
Proof.
  induction 1 as [|[i s] [j p] l tr [E1 E2] _ IH]; [easy|]. cbn [fst snd] in *. subst j. cbn [decode_tracks]. now rewrite E2, IH.
Qed.
Lemma all_some_of {A B} (f : A -> option B) l m : Forall2 (fun x y => f x = Some y) l m -> map f l = map Some m.
Proof. induction 1 as [|x y l m E _ IH]; [easy|]. cbn [map]. now rewrite E, IH. Qed.
Lemma forall2_some {A B} (f : A -> option B) l m m' : Forall2 (fun x y => f x = Some y) l m -> Forall2 (fun x y => f x = Some y) l m' -> m' = m.
Proof. intro H. revert m'. induction H as [|x y l m E _ IH]; intros m' H'; inversion H' as [|? y' ? m'' E' F']; subst; [easy|]. f_equal; [congruence|now apply IH]. Qed.
Lemma export_is b io k d out canon depth rn re rt ns es raw tr ts : bytes_ok io -> db_open io k = DOk d ->
  table_in b k (db_header d) io KPlaylistTreeNode (DOk rn) -> table_in b k (db_header d) io KPlaylistEntry (DOk re) -> table_in b k (db_header d) io KTrack (DOk rt) ->
  Forall2 (fun r x => node_of_row r = Some x) rn ns -> Forall2 (fun r x => pentry_of_row r = Some x) re es -> Forall2 (fun r x => track_of_row r = Some x) rt raw ->
  Forall2 (fun x y => fst x = fst y /\ dstr_into_string (snd x) = inl (snd y)) raw tr -> playlist_tree depth ns = Some (Done ts) ->
  export b depth d out canon = Some (Done (flat_map (fun t => walk (content canon (entries_map es) (tracks_map tr)) t out) ts)).
Proof.
  intros HB HO Tn Te Tt Fn Fe Ft FD PT. pose proof (open_fresh b io k d HO) as HF. pose proof (open_shaped io k d HO) as HD.
  set (d1 := fst (iter_rows b KPlaylistTreeNode d)). set (d2 := fst (iter_rows b KPlaylistEntry d1)).
  destruct (fresh_iter_rows b io k KPlaylistTreeNode d HB HF) as [HF1 HH1]. fold d1 in HF1, HH1. destruct (iter_rows_shaped b KPlaylistTreeNode d HD) as [HD1 _]. fold d1 in HD1.
  destruct (fresh_iter_rows b io k KPlaylistEntry d1 HB HF1) as [HF2 HH2]. fold d2 in HF2, HH2. destruct (iter_rows_shaped b KPlaylistEntry d1 HD1) as [HD2 _]. fold d2 in HD2.
  pose proof (iter_rows_is b io k KPlaylistTreeNode d _ HB HF Tn) as En. rewrite <- HH1 in Te. destruct (table_rows_is b io k KPlaylistEntry pentry_of_row d1 _ pentry_of_shaped HB HF1 HD1 Te) as (es' & Ee & Fe').
  rewrite <- HH1, <- HH2 in Tt. pose proof (iter_rows_is b io k KTrack d2 _ HB HF2 Tt) as Et. destruct (track_paths_ok b d2 rt HD2 Et) as (raw' & Ft' & Ep).
  rewrite (forall2_some _ _ _ _ Fe Fe') in Ee. rewrite (forall2_some _ _ _ _ Ft Ft') in Ep.
  destruct (get_playlists_rows b d rn HD En) as (ns' & Fn' & Gn). rewrite (forall2_some _ _ _ _ Fn Fn') in Gn.
  unfold export. fold d1. fold d2. rewrite Gn, PT, Ee, Ep, (decode_tracks_of _ _ FD). reflexivity.
Qed.

(** ** Rows with the same values *)
Lemma same_node r r' : same_values r r' -> node_of_row r' = node_of_row r.
Proof. destruct r as [k vs oc|], r' as [k' vs' oc'|]; try easy. intros (-> & -> & _). reflexivity. Qed.
Lemma same_pentry r r' : same_values r r' -> pentry_of_row r' = pentry_of_row r.
Proof. destruct r as [k vs oc|], r' as [k' vs' oc'|]; try easy. intros (-> & -> & _). reflexivity. Qed.
Lemma same_track r r' : same_values r r' -> track_of_row r' = track_of_row r.
Proof.
  destruct r as [k vs oc|], r' as [k' vs' oc'|]; try easy. intros (-> & -> & E). destruct oc as [c|], oc' as [c'|]; try easy. cbn [option_map] in E. injection E as E. cbn [track_of_row]. now rewrite E.
Qed.
Lemma same_rows {X} (f : row -> option X) : (forall r r', same_values r r' -> f r' = f r) -> forall l l' m, Forall2 same_values l l' -> Forall2 (fun r x => f r = Some x) l m -> Forall2 (fun r x => f r = Some x) l' m.
Proof. intros HS l l' m H. revert m. induction H as [|r r' l l' E _ IH]; intros m F; inversion F; subst; constructor; [now rewrite (HS _ _ E)|now apply IH]. Qed.
Lemma same_rows_back {X} (f : row -> option X) : (forall r r', same_values r r' -> f r' = f r) -> forall l l' m, Forall2 same_values l l' -> Forall2 (fun r x => f r = Some x) l' m -> Forall2 (fun r x => f r = Some x) l m.
Proof. intros HS l l' m H. revert m. induction H as [|r r' l l' E _ IH]; intros m F; inversion F; subst; constructor; [now rewrite <- (HS _ _ E)|now apply IH]. Qed.

(** ** Shelves and tables *)
Lemma stores_table b io k d G A kd i t l : bytes_ok io -> db_open io k = DOk d -> stores b d G A -> find_table (PT kd) (db_header d) = Some (i, t) -> Session.path A (tb_last t) (tb_first t) l ->
  forallb (is_variant kd) (flat_map (shelf_rows A) l) = true -> exists rows, table_in b k (db_header d) io kd (DOk rows) /\ Forall2 same_values (flat_map (shelf_rows A) l) rows.
Proof.
  intros HB HO HS HT HP HV. destruct (stores_rows b d G A kd i t l HS HT HP HV) as (rows & E & F). exists rows. split; [|exact F].
  destruct (iter_rows_spec b io k kd d HB (open_fresh b io k d HO)) as (x & E' & HX). rewrite E in E'. now injection E' as <-.
Qed.
Lemma open_io io k d : db_open io k = DOk d -> db_io d = io.
Proof. unfold db_open. destruct (rd_dbhdr k io 0) as [[h q]| |]; try easy. now intros [= <-]. Qed.
Lemma stores_bytes b io k d G A : db_open io k = DOk d -> stores b d G A -> bytes_ok io.
Proof. intros HO ((H & _) & _). now rewrite (open_io io k d HO) in H. Qed.

(** ** The lines of a playlist are unique *)
Lemma sorted_ext (ps qs : list (N * N)) : StronglySorted (fun y z => fst y < fst z) ps -> StronglySorted (fun y z => fst y < fst z) qs -> (forall z, In z ps <-> In z qs) -> ps = qs.
Proof.
  revert qs. induction ps as [|p ps IH]; intros [|q qs] S1 S2 HI; [easy|destruct (proj2 (HI q)); now left|destruct (proj1 (HI p)); now left|].
  inversion S1 as [|? ? T1 U1]; subst. inversion S2 as [|? ? T2 U2]; subst. rewrite Forall_forall in U1, U2.
  assert (p = q) as ->.
  { destruct (proj1 (HI p)) as [E|I]; [now left|easy|]. destruct (proj2 (HI q)) as [E|I']; [now left|easy|]. specialize (U1 _ I'). specialize (U2 _ I). lia. }
  f_equal. apply IH; try easy. intro z. split; intro I.
  - destruct (proj1 (HI z)) as [E|I']; [now right| |easy]. subst. specialize (U1 _ I). lia.
  - destruct (proj2 (HI z)) as [E|I']; [now right| |easy]. subst. specialize (U2 _ I). lia.
Qed.
Lemma last_of_fun {A} (P : A -> Prop) l x y : last_of P l x -> last_of P l y -> x = y.
Proof.
  revert x y. induction l as [|z l IH] using rev_ind; intros x y H H'; [now apply last_of_nil in H|]. rewrite last_of_snoc in H, H'.
  destruct H as [[H1 ->]|[H1 H2]], H' as [[H1' ->]|[H1' H2']]; try easy. now apply IH.
Qed.
Lemma last_of_in {A} (P : A -> Prop) l x : last_of P l x -> In x l /\ P x.
Proof. intros (l1 & l2 & -> & HP & _). split; [apply in_elt|easy]. Qed.
Lemma listed_fun canon ts ps : forall ls ls', listed canon ts ps ls -> listed canon ts ps ls' -> ls' = ls.
Proof.
  assert (forall (t : N) (p : list N), last_of (fun x => fst x = t) ts (t, p) -> In t (map fst ts)) as LI by (intros t p L; apply last_of_in in L as [I _]; now apply (in_map fst) in I).
  induction ps as [|[i t] ps IH]; intros ls ls' H H'; inversion H as [|? ? p ? l L F|? ? ? l L F]; subst; inversion H' as [|? ? p' ? l' L' F'|? ? ? l' L' F']; subst; try easy; try (now apply LI in L; easy); try (now apply LI in L'; easy).
  - pose proof (last_of_fun _ _ _ _ L L') as E. injection E as ->. now rewrite (IH _ _ F F').
  - now apply IH.
Qed.
Lemma listed_app canon ts ps qs ls ms : listed canon ts ps ls -> listed canon ts qs ms -> listed canon ts (ps ++ qs) (ls ++ ms).
Proof. intros H K. induction H as [|i t p ps ls L _ IH|i t ps ls L _ IH]; [easy| |]; cbn [app]; now constructor. Qed.
Lemma listed_total canon ts ps : exists ls, listed canon ts ps ls.
Proof.
  induction ps as [|[i t] ps [ls IH]]; [exists []; constructor|]. destruct (in_dec N.eq_dec t (map fst ts)) as [I|N]; [|exists ls; now constructor].
  assert (exists p, last_of (fun x => fst x = t) ts (t, p)) as (p & L).
  { clear -I. induction ts as [|[j q] ts IH] using rev_ind; [easy|]. destruct (N.eq_dec j t) as [->|NE]; [exists q; apply last_of_snoc; now left|].
    rewrite map_app, in_app_iff in I. destruct I as [I|[E|[]]]; [|easy]. destruct (IH I) as (p & L). exists p. apply last_of_snoc. now right. }
  exists (display (join canon (unrooted (Utf.utf8_enc p))) :: ls). now constructor.
Qed.
Lemma sorted_app (ps qs : list (N * N)) : StronglySorted (fun y z => fst y < fst z) ps -> StronglySorted (fun y z => fst y < fst z) qs -> (forall p q, In p ps -> In q qs -> fst p < fst q) ->
  StronglySorted (fun y z => fst y < fst z) (ps ++ qs).
Proof.
  intros H K HX. induction H as [|p ps H IH F]; [easy|]. cbn [app]. constructor; [apply IH; intros; apply HX; [now right|easy]|].
  apply Forall_app. split; [easy|]. apply Forall_forall. intros q I. apply HX; [now left|easy].
Qed.
Lemma sorted_filter f (ps : list (N * N)) : StronglySorted (fun y z => fst y < fst z) ps -> StronglySorted (fun y z => fst y < fst z) (filter f ps).
Proof.
  induction 1 as [|p ps H IH F]; [constructor|]. cbn [filter]. destruct (f p); [|easy]. constructor; [easy|]. rewrite Forall_forall in *. intros q I. apply F. now apply filter_In in I.
Qed.

(** There is one text for each playlist. *)
Lemma text_fun canon es ts id bs bs' : playlist_text canon es ts id bs -> playlist_text canon es ts id bs' -> bs' = bs.
Proof.
  intros (ps & ls & -> & S & HP & HL) (ps' & ls' & -> & S' & HP' & HL'). assert (ps' = ps) as ->; [|now rewrite (listed_fun _ _ _ _ _ HL HL')].
  apply sorted_ext; try easy. intros [i u]. now rewrite HP, HP'.
Qed.

(** ** One entry more *)
Lemma last_of_middle {A} (P : A -> Prop) l1 l2 y x : ~ P y -> last_of P (l1 ++ y :: l2) x <-> last_of P (l1 ++ l2) x.
Proof.
  intro N. revert x. induction l2 as [|z l2 IH] using rev_ind; intro x.
  - rewrite last_of_snoc, app_nil_r. tauto.
  - change (l1 ++ y :: l2 ++ [z]) with (l1 ++ (y :: l2) ++ [z]). rewrite !app_assoc, !last_of_snoc, IH. reflexivity.
Qed.
Lemma last_of_only {A} (P : A -> Prop) l1 l2 y x : P y -> Forall (fun z => ~ P z) (l1 ++ l2) -> last_of P (l1 ++ y :: l2) x <-> x = y.
Proof.
  intros HP HN. apply Forall_app in HN as [N1 N2]. split; [|intros ->; now exists l1, l2]. intro H. apply (last_of_fun P (l1 ++ y :: l2)); [easy|now exists l1, l2].
Qed.
Lemma content_others canon es1 es2 x t id tr id' : id' <> id ->
  content canon (entries_map (es1 ++ mk_pentry x t id :: es2)) (tracks_map tr) id' = content canon (entries_map (es1 ++ es2)) (tracks_map tr) id'.
Proof.
  intro NE. destruct (content_spec canon (es1 ++ mk_pentry x t id :: es2) tr id') as (ps & ls & -> & S & HP & HL). destruct (content_spec canon (es1 ++ es2) tr id') as (ps' & ls' & -> & S' & HP' & HL').
  assert (ps' = ps) as ->; [|now rewrite (listed_fun _ _ _ _ _ HL HL')]. apply sorted_ext; try easy. intros [i u]. rewrite HP, HP', last_of_middle; [easy|]. cbn [pe_playlist]. intros [E _]. now apply NE.
Qed.
Lemma content_insert canon es1 es2 x t id tr : Forall (fun e => ~ (pe_playlist e = id /\ pe_index e = x)) (es1 ++ es2) -> exists ps1 ps2 ls1 new ls2,
  StronglySorted (fun y z => fst y < fst z) (ps1 ++ ps2) /\
  (forall i u, In (i, u) (ps1 ++ ps2) <-> last_of (fun e => pe_playlist e = id /\ pe_index e = i) (es1 ++ es2) (mk_pentry i u id)) /\
  Forall (fun y => fst y < x) ps1 /\ Forall (fun y => x < fst y) ps2 /\ listed canon tr ps1 ls1 /\ listed canon tr [(x, t)] new /\ listed canon tr ps2 ls2 /\
  content canon (entries_map (es1 ++ es2)) (tracks_map tr) id = flat_map (fun l => l ++ [10]) (ls1 ++ ls2) /\
  content canon (entries_map (es1 ++ mk_pentry x t id :: es2)) (tracks_map tr) id = flat_map (fun l => l ++ [10]) (ls1 ++ new ++ ls2).
Proof.
  intro HF. destruct (content_spec canon (es1 ++ es2) tr id) as (ps & ls & -> & S & HP & HL). destruct (content_spec canon (es1 ++ mk_pentry x t id :: es2) tr id) as (ps' & ls' & -> & S' & HP' & HL').
  assert (forall i u, In (i, u) ps -> i <> x) as NX. { intros i u I ->. apply HP, last_of_in in I as [I E]. rewrite Forall_forall in HF. now apply (HF _ I). }
  set (ps1 := filter (fun y => fst y <? x) ps). set (ps2 := filter (fun y => x <? fst y) ps).
  assert (forall y, In y ps1 -> fst y < x) as P1 by (intros y I; apply filter_In in I as [_ I]; lia). assert (forall y, In y ps2 -> x < fst y) as P2 by (intros y I; apply filter_In in I as [_ I]; lia).
  assert (StronglySorted (fun y z => fst y < fst z) ps1) as S1 by now apply sorted_filter. assert (StronglySorted (fun y z => fst y < fst z) ps2) as S2 by now apply sorted_filter.
  assert (ps = ps1 ++ ps2) as EP.
  { apply sorted_ext; [easy|apply sorted_app; try easy; intros p q IP IQ; apply P1 in IP; apply P2 in IQ; lia|]. intros [i u]. rewrite in_app_iff. unfold ps1, ps2. rewrite !filter_In. cbn [fst].
    split; [intro I; pose proof (NX i u I); destruct (i <? x) eqn:E; [left|right]; split; try easy; lia|tauto]. }
  clearbody ps1 ps2.
  assert (ps' = ps1 ++ [(x, t)] ++ ps2) as EP'.
  { apply sorted_ext; [easy| |].
    - apply sorted_app; [easy| |].
      + cbn [app]. constructor; [easy|]. apply Forall_forall. intros q I. now apply P2.
      + intros p q IP IQ. apply P1 in IP. cbn [app] in IQ. destruct IQ as [<-|IQ]; [easy|]. apply P2 in IQ. lia.
    - intros [i u]. rewrite HP'. transitivity ((i, u) = (x, t) \/ In (i, u) ps).
      + destruct (N.eq_dec i x) as [->|NE].
        * rewrite (last_of_only (fun e => pe_playlist e = id /\ pe_index e = x)) by easy. split; [intros [= ->]; now left|]. intros [[= ->]|I]; [easy|]. now apply NX in I.
        * rewrite last_of_middle by (cbn [pe_index]; intros [_ E]; now symmetry in E). rewrite <- HP. split; [now right|]. intros [[= E _]|I]; [now subst|easy].
      + rewrite EP, !in_app_iff. cbn [In]. intuition congruence. }
  destruct (listed_total canon tr ps1) as [ls1 L1], (listed_total canon tr ps2) as [ls2 L2], (listed_total canon tr [(x, t)]) as [new L0].
  exists ps1, ps2, ls1, new, ls2. rewrite <- EP. split; [easy|]. split; [exact HP|]. split; [now apply Forall_forall|]. split; [now apply Forall_forall|]. do 3 (split; [easy|]).
  rewrite EP in HL. rewrite (listed_fun _ _ _ _ _ (listed_app _ _ _ _ _ _ L1 L2) HL). split; [easy|]. rewrite EP' in HL'.
  now rewrite (listed_fun _ _ _ _ _ (listed_app _ _ _ _ _ _ L1 (listed_app _ _ _ _ _ _ L0 L2)) HL').
Qed.
