(** * Property C96: where and in which order rows are stored *)
From Coq Require Import NArith ZArith List Bool Lia Sorted Relations String Permutation.
From Coq Require Import ZifyBool ZifyNat ZifyN.
From Verif Require Import Base BaseFacts Segs Utf Str StrFacts StrGood Schema SchemaFacts Oa OaFacts OaSpec Rows RowFacts RowSpec Page BitFacts PageFacts PageRw PageSpec Alloc AllocFacts AllocSpec
  Db DbFacts DbFlush DbFresh RowShape Reread Progress Insert Session Revise Dump DumpFacts Setting Device DeviceFacts DeviceTree Cli CliFacts CliList Fs FsFacts FsExport Listing Compose Graft ComposeList ComposeEdit
  PropListing PropCompose PropComposeList PropComposeEdit PropExport.
Import ListNotations.
Local Close Scope string_scope.
Open Scope N_scope.

(** ** Lemmas: the last row with a key does not depend on the order if keys are distinct *)
Lemma last_of_keys {A K} (key : A -> K) (l : list A) P k x : NoDup (map key l) -> (forall y, P y <-> key y = k) -> last_of P l x <-> In x l /\ P x.
Proof.
  intros ND HP. split; [apply last_of_in|]. intros [I E]. apply in_split in I as (l1 & l2 & ->). exists l1, l2. split; [easy|]. split; [easy|].
  rewrite map_app in ND. cbn [map] in ND. apply NoDup_remove_2 in ND. apply Forall_forall. intros y Y PY. apply ND. apply in_or_app. right. apply HP in E, PY. rewrite E, <- PY. now apply in_map.
Qed.
Lemma last_of_perm {A K} (key : A -> K) (l l' : list A) P k x : NoDup (map key l) -> Permutation l l' -> (forall y, P y <-> key y = k) -> last_of P l x <-> last_of P l' x.
Proof.
  intros ND HP HK. assert (NoDup (map key l')) as ND' by now apply (Permutation_NoDup (Permutation_map key HP)).
  rewrite (last_of_keys key l P k x ND HK), (last_of_keys key l' P k x ND' HK). split; intros [I E]; (split; [|exact E]); [now apply (Permutation_in _ HP)|now apply (Permutation_in _ (Permutation_sym HP))].
Qed.
Definition place (e : pentry) : N * N := (pe_playlist e, pe_index e).
Lemma place_is (id i : N) e : (pe_playlist e = id /\ pe_index e = i) <-> place e = (id, i).
Proof. unfold place. split; [now intros [-> ->]|intro E; now injection E]. Qed.
Lemma in_fst_perm {V} (l l' : list (N * V)) t : Permutation l l' -> In t (map fst l) <-> In t (map fst l').
Proof. intro HP. pose proof (Permutation_map fst HP) as HM. split; intro I; [now apply (Permutation_in _ HM)|now apply (Permutation_in _ (Permutation_sym HM))]. Qed.
Lemma forall2_weak {A B} (R S : A -> B -> Prop) l m : (forall x y, R x y -> S x y) -> Forall2 R l m -> Forall2 S l m.
Proof. intros H F. induction F; constructor; auto. Qed.
Lemma node_lines_perm es es' arts arts' trs trs' y l : Permutation es es' -> NoDup (map place es) -> Permutation arts arts' -> NoDup (map fst arts) -> Permutation trs trs' -> NoDup (map fst trs) ->
  node_lines es arts trs y l -> node_lines es' arts' trs' y l.
Proof.
  intros PE DE PA DA PT DT (ps & ls & -> & S & HP & HL). exists ps, ls. split; [easy|]. split; [easy|]. split.
  - intros i t. rewrite HP. apply (last_of_perm place es es' _ (nd_id (snd y), i) _ DE PE). intro e. apply place_is.
  - eapply forall2_weak; [|exact HL]. cbv beta. intros [i t] it H. cbn [fst snd] in *. inversion H as [N|a title L N|a title name L L'].
    + apply tl_missing. now rewrite <- (in_fst_perm trs trs' t PT).
    + apply tl_no_artist; [now apply (last_of_perm fst trs trs' _ t _ DT PT)|now rewrite <- (in_fst_perm arts arts' a PA)].
    + apply (tl_found _ _ _ _ _ a); [now apply (last_of_perm fst trs trs' _ t _ DT PT)|now apply (last_of_perm fst arts arts' _ a _ DA PA)].
Qed.
Lemma text_perm canon es es' tr tr' id bs : Permutation es es' -> NoDup (map place es) -> Permutation tr tr' -> NoDup (map fst tr) -> playlist_text canon es tr id bs -> playlist_text canon es' tr' id bs.
Proof.
  intros PE DE PT DT (ps & ls & -> & S & HP & HL). exists ps, ls. split; [easy|]. split; [easy|]. split.
  - intros i t. rewrite HP. apply (last_of_perm place es es' _ (id, i) _ DE PE). intro e. apply place_is.
  - clear -PT DT HL. induction HL as [|i t p ps ls L _ IH|i t ps ls L _ IH]; [constructor| |].
    + apply listed_found; [now apply (last_of_perm fst tr tr' _ t _ DT PT)|exact IH].
    + apply listed_missing; [now rewrite <- (in_fst_perm tr tr' t PT)|exact IH].
Qed.
Lemma out_all_ext {A} (f g : A -> option output) l : (forall x, f x = g x) -> out_all f l = out_all g l.
Proof. intro H. induction l as [|x l IH]; [easy|]. cbn [out_all]. now rewrite H, IH. Qed.
Lemma print_ext em em' a a' t t' ns : (forall y, row_items em a t y = row_items em' a' t' y) -> forall depth id level,
  print_children depth (by_parent ns) em a t id level = print_children depth (by_parent ns) em' a' t' id level.
Proof.
  intro H. induction depth as [|depth IH]; intros id level; [easy|]. cbn [print_children]. apply out_all_ext. intro n. rewrite IH.
  change ([], false) with (shown []). rewrite !print_shown, !print_tracks_shown, !shown_app. cbn [List.app].
  specialize (H (level, n)). unfold row_items in H. cbn [fst snd] in H. injection H as H. now rewrite H.
Qed.
Lemma listing_is b io ns arts trs es depth : listing_rows b io ns arts trs es -> list_playlists b depth io = option_map Done (print_children depth (by_parent ns) (entries_map es) (insert_all arts) (insert_all trs) 0 0).
Proof.
  intros (d & rn & ra & rt & re & HB & HO & Tn & Fn & Ta & Fa & Tt & Ft & Te & Fe).
  destruct (list_rows b io d HB HO) as [_ H]. destruct (H rn ra rt re Tn Ta Tt Te) as (ns' & arts' & trs' & es' & F1 & F2 & F3 & F4 & E).
  rewrite (forall2_some _ _ _ _ Fn F1), (forall2_some _ _ _ _ Fa F2), (forall2_some _ _ _ _ Ft F3), (forall2_some _ _ _ _ Fe F4) in E. apply E.
Qed.
(** Permutations of nodes *)
Lemma perm_filter {A} (p : A -> bool) l l' : Permutation l l' -> Permutation (filter p l) (filter p l').
Proof.
  intro H. induction H as [|x l l' H IH|x y l|l l' l'' H1 IH1 H2 IH2]; cbn [filter]; [easy| | |now transitivity (filter p l')].
  - destruct (p x); [now constructor|easy].
  - destruct (p x), (p y); try easy. apply perm_swap.
Qed.
Lemma opt_flat_same {A B} (f g : A -> option (list B)) l : (forall x u, In x l -> f x = Some u -> exists u', g x = Some u' /\ Permutation u u') -> forall v, opt_flat f l = Some v ->
  exists v', opt_flat g l = Some v' /\ Permutation v v'.
Proof.
  intro H. induction l as [|x l IH]; intros v E; cbn [opt_flat] in *; [exists []; now injection E as <-|]. destruct (f x) as [u|] eqn:EX; [|easy]. destruct (opt_flat f l) as [w|] eqn:EL; [|easy]. injection E as <-.
  destruct (H x u (or_introl eq_refl) EX) as (u' & -> & PU). destruct (IH (fun y u I => H y u (or_intror I)) w eq_refl) as (w' & -> & PW). eexists. split; [reflexivity|]. now apply Permutation_app.
Qed.
Lemma opt_flat_perm {A B} (f : A -> option (list B)) l l' : Permutation l l' -> forall v, opt_flat f l = Some v -> exists v', opt_flat f l' = Some v' /\ Permutation v v'.
Proof.
  intro H. induction H as [|x l l' H IH|x y l|l l' l'' H1 IH1 H2 IH2]; intros v E; cbn [opt_flat] in *.
  - exists v. split; [easy|reflexivity].
  - destruct (f x) as [u|]; [|easy]. destruct (opt_flat f l) as [w|]; [|easy]. injection E as <-. destruct (IH w eq_refl) as (w' & -> & PW). eexists. split; [reflexivity|]. now apply Permutation_app_head.
  - destruct (f y) as [u|], (f x) as [u'|], (opt_flat f l) as [w|]; try easy. injection E as <-. eexists. split; [reflexivity|]. rewrite !app_assoc. apply Permutation_app_tail, Permutation_app_comm.
  - destruct (IH1 v E) as (v1 & E1 & P1). destruct (IH2 v1 E1) as (v2 & E2 & P2). exists v2. split; [exact E2|]. now transitivity v1.
Qed.
Lemma visit_perm ns ns' : Permutation ns ns' -> forall depth id level v, visit depth ns id level = Some v -> exists v', visit depth ns' id level = Some v' /\ Permutation v v'.
Proof.
  intro HP. induction depth as [|depth IH]; intros id level v H; [easy|]. cbn [visit] in *.
  destruct (opt_flat_perm _ _ _ (perm_filter (fun n => nd_parent n =? id) ns ns' HP) v H) as (v1 & E1 & P1). fold (kids ns' id) in E1.
  assert (forall n u, In n (kids ns' id) -> option_map (cons (level, n)) (visit depth ns (nd_id n) (S level)) = Some u -> exists u', option_map (cons (level, n)) (visit depth ns' (nd_id n) (S level)) = Some u' /\ Permutation u u') as HS.
  { intros n u _ E. destruct (visit depth ns (nd_id n) (S level)) as [w|] eqn:V; [|easy]. injection E as <-. destruct (IH _ _ _ V) as (w' & -> & PW). eexists. split; [reflexivity|]. now constructor. }
  destruct (opt_flat_same _ _ _ HS v1 E1) as (v2 & E2 & P2). exists v2. split; [exact E2|now transitivity v1].
Qed.
Lemma collect_same {A B} (f g : A -> option (outcome B)) (R : B -> B -> Prop) l : (forall x u, In x l -> f x = Some (Done u) -> exists u', g x = Some (Done u') /\ R u u') -> forall v, collect_map f l = Some (Done v) ->
  exists v', collect_map g l = Some (Done v') /\ Forall2 R v v'.
Proof.
  intro H. induction l as [|x l IH]; intros v E; cbn [collect_map] in *; [exists []; now injection E as <-|]. destruct (f x) as [[u|e|]|] eqn:EX; try easy. destruct (collect_map f l) as [[w|e|]|] eqn:EL; try easy. injection E as <-.
  destruct (H x u (or_introl eq_refl) EX) as (u' & -> & PU). destruct (IH (fun y u I => H y u (or_intror I)) w eq_refl) as (w' & -> & PW). eexists. split; [reflexivity|]. now constructor.
Qed.
Lemma collect_perm {A B} (f : A -> option (outcome B)) l l' : Permutation l l' -> forall v, collect_map f l = Some (Done v) -> exists v', collect_map f l' = Some (Done v') /\ Permutation v v'.
Proof.
  intro H. induction H as [|x l l' H IH|x y l|l l' l'' H1 IH1 H2 IH2]; intros v E; cbn [collect_map] in *.
  - exists v. split; [easy|reflexivity].
  - destruct (f x) as [[u|e|]|]; try easy. destruct (collect_map f l) as [[w|e|]|]; try easy. injection E as <-. destruct (IH w eq_refl) as (w' & -> & PW). eexists. split; [reflexivity|]. now constructor.
  - destruct (f y) as [[u|e|]|]; try easy. destruct (f x) as [[u'|e|]|]; try easy. destruct (collect_map f l) as [[w|e|]|]; try easy. injection E as <-. eexists. split; [reflexivity|]. apply perm_swap.
  - destruct (IH1 v E) as (v1 & E1 & P1). destruct (IH2 v1 E1) as (v2 & E2 & P2). exists v2. split; [exact E2|]. now transitivity v1.
Qed.

(** ** Vocabulary *)
(** The same nodes in the same folders, with siblings in another order *)
Inductive shuffled : list pnode -> list pnode -> Prop :=
| sh_nil : shuffled [] []
| sh_folder i s ch ch' l l' : shuffled ch ch' -> shuffled l l' -> shuffled (PFolder i s ch :: l) (PFolder i s ch' :: l')
| sh_playlist i s l l' : shuffled l l' -> shuffled (PPlaylist i s :: l) (PPlaylist i s :: l')
| sh_perm l l' l'' : Permutation l l' -> shuffled l' l'' -> shuffled l l''.
Lemma child_perm ns ns' : Permutation ns ns' -> forall depth id ts, child_nodes depth (by_parent ns) id = Some (Done ts) -> exists ts', child_nodes depth (by_parent ns') id = Some (Done ts') /\ shuffled ts ts'.
Proof.
  intro HP. induction depth as [|depth IH]; intros id ts H; [easy|]. cbn [child_nodes] in *. rewrite by_parent_kids in *.
  destruct (collect_perm _ _ _ (perm_filter (fun n => nd_parent n =? id) ns ns' HP) ts H) as (t1 & E1 & P1). fold (kids ns' id) in E1.
  match goal with |- exists v', collect_map ?g _ = _ /\ _ => set (G := g) end. match type of E1 with collect_map ?g _ = _ => set (F := g) in * end.
  assert (forall n u, In n (kids ns' id) -> F n = Some (Done u) -> exists u', G n = Some (Done u') /\ shuffled [u] [u']) as HS.
  { intros n u _ E. unfold F, G in *. destruct (dstr_into_string (nd_name n)) as [s|]; [|easy]. destruct (nd_folder n); [|injection E as <-; eexists; split; [reflexivity|repeat constructor]].
    destruct (child_nodes depth (by_parent ns) (nd_id n)) as [[ch|e|]|] eqn:C; try easy. injection E as <-. destruct (IH _ _ C) as (ch' & -> & SH). eexists. split; [reflexivity|]. constructor; [exact SH|constructor]. }
  destruct (collect_same _ _ (fun u u' => shuffled [u] [u']) _ HS t1 E1) as (t2 & E2 & P2). exists t2. split; [exact E2|]. apply (sh_perm _ t1); [exact P1|].
  clear -P2. induction P2 as [|u u' l l' H FF IH]; [constructor|]. clear FF. change (u' :: l') with ([u'] ++ l'). change (u :: l) with ([u] ++ l).
  revert H. generalize [u], [u']. intros a b H. induction H; cbn [List.app]; [exact IH|constructor; easy|constructor; easy|]. eapply sh_perm; [|exact IHshuffled]. now apply Permutation_app_tail.
Qed.
Lemma shuffled_lists ts ts' : shuffled ts ts' -> forall a, Permutation (flat_map (playlists a) ts) (flat_map (playlists a) ts').
Proof.
  intro H. induction H as [|i s ch ch' l l' _ IH1 _ IH2|i s l l' _ IH|l l' l'' HP _ IH]; intro a; cbn [flat_map playlists]; [reflexivity| | |].
  - now apply Permutation_app.
  - now apply Permutation_app_head.
  - etransitivity; [|apply IH]. now apply Permutation_flat_map.
Qed.
Lemma shuffled_strict ts ts' : shuffled ts ts' -> Forall strict ts -> Forall strict ts'.
Proof.
  intro H. induction H as [|i s ch ch' l l' _ IH1 _ IH2|i s l l' _ IH|l l' l'' HP _ IH]; intro F; [easy| | |].
  - inversion F as [|? ? SF F']; subst. cbn [strict] in SF. destruct SF as (P & R & C). constructor; [|now apply IH2]. cbn [strict]. split; [easy|]. split; [easy|]. apply strict_all. apply strict_all in C. now apply IH1.
  - inversion F; subst. constructor; [easy|now apply IH].
  - apply IH. eapply Permutation_Forall; [exact HP|exact F].
Qed.

(** ** C96 *)
(** Two files with the same nodes in the playlist tree and with the same artists, tracks and entries, in whatever pages and in whatever order: the same listing. *)
Theorem c96_listing : forall b io io' ns arts arts' trs trs' es es', listing_rows b io ns arts trs es -> listing_rows b io' ns arts' trs' es' ->
  Permutation arts arts' -> NoDup (map fst arts) -> Permutation trs trs' -> NoDup (map fst trs) -> Permutation es es' -> NoDup (map place es) ->
  forall depth, list_playlists b depth io' = list_playlists b depth io.
Proof.
  intros b io io' ns arts arts' trs trs' es es' H H' PA DA PT DT PE DE depth. rewrite (listing_is _ _ _ _ _ _ depth H), (listing_is _ _ _ _ _ _ depth H'). f_equal. apply print_ext. intro y. symmetry.
  change (items es arts trs y = items es' arts' trs' y). symmetry. apply items_eq. now apply (node_lines_perm es es' arts arts' trs trs'), items_lines.
Qed.
Print Assumptions c96_listing.
(** If the keys are not distinct, the order counts only for rows with the same key: with all rows in the same order, no hypothesis is needed. *)
Theorem c96_same : forall b io io' ns arts trs es, listing_rows b io ns arts trs es -> listing_rows b io' ns arts trs es -> forall depth, list_playlists b depth io' = list_playlists b depth io.
Proof. intros b io io' ns arts trs es H H' depth. now rewrite (listing_is _ _ _ _ _ _ depth H), (listing_is _ _ _ _ _ _ depth H'). Qed.
Print Assumptions c96_same.
(** The nodes in another order: the same lines for each node, on the same level; the children of each node are in the order of the rows ([ordered]). *)
Theorem c96_siblings : forall b io io' ns ns' arts arts' trs trs' es es', listing_rows b io ns arts trs es -> listing_rows b io' ns' arts' trs' es' ->
  Permutation ns ns' -> distinct ns -> Permutation arts arts' -> NoDup (map fst arts) -> Permutation trs trs' -> NoDup (map fst trs) -> Permutation es es' -> NoDup (map place es) ->
  exists v v' F, Permutation v v' /\ ordered ns v /\ ordered ns' v' /\ (forall y, node_lines es arts trs y (F y)) /\ lists b io ns v F /\ lists b io' ns' v' F.
Proof.
  intros b io io' ns ns' arts arts' trs trs' es es' H H' PN DN PA DA PT DT PE DE.
  assert (distinct ns') as DN' by (destruct DN as [D1 D2]; pose proof (Permutation_map nd_id PN) as PM; split; [now apply (Permutation_NoDup PM)|intro I; apply D2, (Permutation_in _ (Permutation_sym PM) I)]).
  destruct (ordered_visit ns DN) as (v & V & O). destruct (ordered_visit ns' DN') as (v' & V' & O'). destruct (visit_perm ns ns' PN _ _ _ _ V) as (v2 & V2 & P2).
  rewrite (Permutation_length PN) in V2. assert (v2 = v') as -> by congruence. exists v, v', (items es arts trs). split; [exact P2|]. split; [exact O|]. split; [exact O'|]. split; [intro; apply items_lines|].
  split; [now apply lists_rows|]. pose proof (lists_rows b io' ns' arts' trs' es' v' H' DN' V') as L. intros depth HD. rewrite (L depth HD). do 3 f_equal. apply flat_map_ext. intro y. apply items_eq.
  apply (node_lines_perm es es' arts arts' trs trs' y); try easy. apply items_lines.
Qed.
Print Assumptions c96_siblings.
(** The tree of the API ([get_playlists]): another order of rows changes the order of siblings only. *)
Theorem c96_tree : forall ns ns' depth ts, Permutation ns ns' -> playlist_tree depth ns = Some (Done ts) -> exists ts', playlist_tree depth ns' = Some (Done ts') /\ shuffled ts ts'.
Proof. intros ns ns' depth ts HP. exact (child_perm ns ns' HP depth 0 ts). Qed.
Print Assumptions c96_tree.
(** The export: the same files with the same contents in the same folders. *)
Theorem c96_export : forall b io io' ns ns' es es' tr tr' depth ts, export_rows b io ns es tr -> export_rows b io' ns' es' tr' ->
  Permutation ns ns' -> Permutation tr tr' -> NoDup (map fst tr) -> Permutation es es' -> NoDup (map place es) -> playlist_tree depth ns = Some (Done ts) ->
  exists ts' , shuffled ts ts' /\ Permutation (flat_map (playlists []) ts) (flat_map (playlists []) ts') /\
    forall out canon, exists c, (forall id, playlist_text canon es tr id (c id)) /\ exports b io depth out canon ts c /\ exports b io' depth out canon ts' c.
Proof.
  intros b io io' ns ns' es es' tr tr' depth ts H H' PN PT DT PE DE ET. destruct (c96_tree ns ns' depth ts PN ET) as (ts' & ET' & SH). exists ts'. split; [exact SH|]. split; [now apply shuffled_lists|].
  intros out canon. exists (content canon (entries_map es) (tracks_map tr)). split; [intro; apply content_text|]. split; [now apply (exports_rows b io ns es tr)|].
  destruct (exports_rows b io' ns' es' tr' depth out canon ts' H' ET') as (d & HO & HX). exists d. split; [exact HO|]. rewrite HX. do 2 f_equal. apply flat_map_ext. intro t. apply walk_ext. intro id.
  apply (text_fun canon es' tr' id); [|apply content_text]. apply (text_perm canon es es' tr tr'); try easy. apply content_text.
Qed.
Print Assumptions c96_export.
(** On the disk: one export succeeds if and only if the other does, and then each playlist has the same file with the same content. *)
Theorem c96_disk : forall cwd out content ts ts' f o1 o2 b, shuffled ts ts' -> Forall strict ts -> has_nul out = false -> pieces out = o1 ++ o2 -> Forall real o2 -> enter f (start cwd out) o1 = inl b ->
  ((exists g, perform cwd f (flat_map (fun t => walk content t out) ts) = (g, None)) <-> (exists g, perform cwd f (flat_map (fun t => walk content t out) ts') = (g, None))) /\
  forall g g', perform cwd f (flat_map (fun t => walk content t out) ts) = (g, None) -> perform cwd f (flat_map (fun t => walk content t out) ts') = (g', None) ->
    NoDup (map (fun x => dir_of [] (fst (fst x)) ++ [m3u (snd x)]) (flat_map (playlists []) ts)) ->
    forall above id name, In (above, id, name) (flat_map (playlists []) ts) ->
    let l := dir_of (locate cwd out) above ++ [m3u name] in g l = Some (EFile (content id)) /\ g' l = Some (EFile (content id)).
Proof.
  intros cwd out cont ts ts' f o1 o2 b SH ST HN HP HR HE. pose proof (shuffled_strict ts ts' SH ST) as ST'. pose proof (shuffled_lists ts ts' SH []) as PL.
  split.
  - rewrite (proj1 (c86_exact cwd out cont ts f o1 o2 b ST HN HP HR HE)), (proj1 (c86_exact cwd out cont ts' f o1 o2 b ST' HN HP HR HE)). unfold fits.
    assert (forall x, In x (flat_map (playlists []) ts) <-> In x (flat_map (playlists []) ts')) as HI by (intro x; split; intro I; [now apply (Permutation_in _ PL)|now apply (Permutation_in _ (Permutation_sym PL))]).
    split; intros H x I; apply HI in I; (destruct (H x I) as (A & B & C); split; [exact A|split; [exact B|intros y J; apply HI in J; now apply C]]).
  - intros g g' G G' ND above id name I l. assert (forall t, Forall strict t -> Forall safe t) as SS.
    { clear. induction t as [|t l IH]; intro F; [easy|]. inversion F as [|? ? ST F']; subst. constructor; [|now apply IH]. clear -ST. induction t as [i s ch IH|i s] using pnode_ind2; cbn [strict safe] in *; [|apply ST].
      destruct ST as ((P1 & P2) & R & C). split; [exact P1|]. split; [apply R|]. apply safe_all. apply strict_all in C. rewrite Forall_forall in *. intros x I. now apply IH, C. }
    split; [apply (c86_all cwd out cont ts f g (SS ts ST) (c86_perform _ _ _ _ _ G) ND _ _ _ I)|].
    apply (c86_all cwd out cont ts' f g' (SS ts' ST') (c86_perform _ _ _ _ _ G')); [|now apply (Permutation_in _ PL)]. eapply Permutation_NoDup; [apply Permutation_map; exact PL|exact ND].
Qed.
Print Assumptions c96_disk.
(** The field [sort_order] (third field) of the rows of the tree is not used: files that differ only there have the same listing. *)
Definition resorted (r r' : row) : Prop :=
  exists p u s s' i f n o, r = RRow KPlaylistTreeNode [VInt p; VInt u; VInt s; VInt i; VInt f; n] o /\ r' = RRow KPlaylistTreeNode [VInt p; VInt u; VInt s'; VInt i; VInt f; n] o.
Theorem c96_sort : forall b io io' d d' rn rn', bytes_ok io -> bytes_ok io' -> db_open io DbPlain = DOk d -> db_open io' DbPlain = DOk d' ->
  table_in b DbPlain (db_header d) io KPlaylistTreeNode (DOk rn) -> table_in b DbPlain (db_header d') io' KPlaylistTreeNode (DOk rn') -> Forall2 resorted rn rn' ->
  (forall kd, In kd [KArtist; KTrack; KPlaylistEntry] -> exists rows, table_in b DbPlain (db_header d) io kd (DOk rows) /\ table_in b DbPlain (db_header d') io' kd (DOk rows)) ->
  forall depth, list_playlists b depth io' = list_playlists b depth io.
Proof.
  intros b io io' d d' rn rn' HB HB' HO HO' TN TN' FR HT depth. destruct (HT KArtist) as (ra & Ta & Ta'); [now left|]. destruct (HT KTrack) as (rt & Tt & Tt'); [right; now left|]. destruct (HT KPlaylistEntry) as (re & Te & Te'); [right; right; now left|].
  destruct (list_rows b io d HB HO) as [_ H]. destruct (H rn ra rt re TN Ta Tt Te) as (ns & arts & trs & es & F1 & F2 & F3 & F4 & _).
  destruct (list_rows b io' d' HB' HO') as [_ H']. destruct (H' rn' ra rt re TN' Ta' Tt' Te') as (ns' & arts' & trs' & es' & F1' & F2' & F3' & F4' & _).
  pose proof (forall2_some _ _ _ _ F2 F2') as EA. pose proof (forall2_some _ _ _ _ F3 F3') as ET. pose proof (forall2_some _ _ _ _ F4 F4') as EE. subst arts' trs' es'.
  assert (Forall2 (fun r x => node_of_row r = Some x) rn' ns) as F1''.
  { clear -FR F1. revert ns F1. induction FR as [|r r' l l' H _ IH]; intros ns F; inversion F as [|? x ? m E F']; subst; constructor; [|now apply IH]. destruct H as (p & u & s & s' & i & f & n & o & -> & ->). cbn [node_of_row] in *. destruct n; congruence. }
  apply (c96_same b io io' ns arts trs es); [exists d, rn, ra, rt, re|exists d', rn', ra, rt, re]; easy.
Qed.
Print Assumptions c96_sort.

(** ** Examples *)
(** The rows of [c94_io] in another order, the tables in other pages, one of them in two pages *)
Definition c96_header : dbhdr := mk_dbhdr 600 4 6 0 7 [mk_table (PT KPlaylistTreeNode) 9 3 5; mk_table (PT KTrack) 9 1 1; mk_table (PT KPlaylistEntry) 9 4 4; mk_table (PT KArtist) 9 2 2].
Definition c96_linked (p : page) (next : N) : page := let h := pg_header p in
  mk_page (mk_phdr (ph_index h) (ph_type h) next (ph_unknown1 h) (ph_unknown2 h) (ph_counts h) (ph_flags h) (ph_free h) (ph_used h)) (pg_content p).
Definition c96_new : list N := Eval vm_compute in match flush Debug (mk_db (repeat 0 3600) DbPlain c96_header
  [Some (c88_empty 1 KTrack); Some (c88_empty 2 KArtist); Some (c96_linked (c88_empty 3 KPlaylistTreeNode) 5); Some (c88_empty 4 KPlaylistEntry); Some (c88_empty 5 KPlaylistTreeNode)]) with DOk d => db_io d | _ => [] end.
Definition c96_node (parent sort id folder : N) (name : string) : row := RRow KPlaylistTreeNode [VInt parent; VInt 0; VInt sort; VInt id; VInt folder; VStr (DSShort (bytes_of name))] None.
Definition c96_filled : list edit :=
  [(3, map sized [c96_node 0 2 3 0 "Mix"; c96_node 2 0 5 0 "Deep"]); (5, map sized [c96_node 0 1 2 1 "Sets"]); (1, map sized [c76_track 41 8 "Two" "/b.mp3"; c76_track 40 7 "One" "/a.mp3"]);
   (4, map sized [entry_row 1 42 3; entry_row 7 40 5; entry_row 1 41 5]); (2, map sized [c76_artist 7 "Ann"])].
Definition c96_io : list N := Eval vm_compute in match do_session Debug c96_new c96_filled with Some io => io | None => [] end.
Definition c96_open : database := mk_db c96_io DbPlain c96_header [None; None; None; None; None].
Lemma c96_opens : db_open c96_io DbPlain = DOk c96_open.
Proof. vm_compute. reflexivity. Qed.
Lemma c96_bytes : bytes_ok c96_io.
Proof. apply Forall_forall. intros x Hx. assert (forallb (fun x => x <? 256) c96_io = true) as E by (vm_compute; reflexivity). rewrite forallb_forall in E. specialize (E x Hx). cbv beta in E. lia. Qed.
Example c96_example : exists ns arts trs es ns' arts' trs' es', listing_rows Debug c94_io ns arts trs es /\ listing_rows Debug c96_io ns' arts' trs' es' /\
  Permutation ns ns' /\ distinct ns /\ Permutation arts arts' /\ NoDup (map fst arts) /\ Permutation trs trs' /\ NoDup (map fst trs) /\ Permutation es es' /\ NoDup (map place es) /\ ns <> ns' /\ trs <> trs' /\ es <> es'.
Proof.
  destruct c94_before as (ns & arts & trs & es & HL & D & -> & -> & -> & ->).
  assert (forall kd, exists x, snd (iter_rows Debug kd c96_open) = Some x /\ table_in Debug DbPlain c96_header c96_io kd x) as H.
  { intro kd. exact (iter_rows_spec Debug c96_io DbPlain kd c96_open c96_bytes (open_fresh _ _ _ _ c96_opens)). }
  destruct (H KPlaylistTreeNode) as (x1 & E1 & T1), (H KArtist) as (x2 & E2 & T2), (H KTrack) as (x3 & E3 & T3), (H KPlaylistEntry) as (x4 & E4 & T4). clear H.
  vm_compute in E1. injection E1 as <-. vm_compute in E2. injection E2 as <-. vm_compute in E3. injection E3 as <-. vm_compute in E4. injection E4 as <-.
  exists [mk_node 2 5 0 (DSShort (bytes_of "Deep")); mk_node 0 2 1 (DSShort (bytes_of "Sets")); mk_node 0 3 0 (DSShort (bytes_of "Mix"))], [(7, DSShort (bytes_of "Ann"))],
    [(40, (7, DSShort (bytes_of "One"))); (41, (8, DSShort (bytes_of "Two")))], [mk_pentry 1 41 5; mk_pentry 7 40 5; mk_pentry 1 42 3],
    [mk_node 0 3 0 (DSShort (bytes_of "Mix")); mk_node 2 5 0 (DSShort (bytes_of "Deep")); mk_node 0 2 1 (DSShort (bytes_of "Sets"))], [(7, DSShort (bytes_of "Ann"))],
    [(41, (8, DSShort (bytes_of "Two"))); (40, (7, DSShort (bytes_of "One")))], [mk_pentry 1 42 3; mk_pentry 7 40 5; mk_pentry 1 41 5].
  split; [exact HL|]. split.
  { eexists c96_open, _, _, _, _. split; [exact c96_bytes|]. split; [exact c96_opens|]. split; [exact T1|]. split; [repeat (apply Forall2_cons; [vm_compute; reflexivity|]); apply Forall2_nil|].
    split; [exact T2|]. split; [repeat (apply Forall2_cons; [vm_compute; reflexivity|]); apply Forall2_nil|]. split; [exact T3|]. split; [repeat (apply Forall2_cons; [vm_compute; reflexivity|]); apply Forall2_nil|].
    split; [exact T4|]. repeat (apply Forall2_cons; [vm_compute; reflexivity|]); apply Forall2_nil. }
  split; [eapply perm_trans; [apply perm_skip, perm_swap|apply perm_swap]|]. split; [exact D|]. split; [reflexivity|]. split; [repeat (apply NoDup_cons; [cbn [In]; intuition discriminate|]); apply NoDup_nil|].
  split; [apply perm_swap|]. split; [repeat (apply NoDup_cons; [cbn [In map fst]; intuition discriminate|]); apply NoDup_nil|].
  split; [eapply perm_trans; [apply perm_skip, perm_swap|]; eapply perm_trans; [apply perm_swap|apply perm_skip, perm_swap]|].
  split; [cbn [map place pe_playlist pe_index]; repeat (apply NoDup_cons; [cbn [In]; intuition discriminate|]); apply NoDup_nil|]. split; [discriminate|]. split; discriminate.
Qed.
Example c96_outputs :
  let deep := [LNode 1 false (DSShort (bytes_of "Deep")); LTrack 1 1 (TNoArtist 8 (DSShort (bytes_of "Two"))); LTrack 1 7 (TFound (DSShort (bytes_of "Ann")) (DSShort (bytes_of "One")))] in
  let sets := LNode 0 true (DSShort (bytes_of "Sets")) in let mix := [LNode 0 false (DSShort (bytes_of "Mix")); LTrack 0 1 (TMissing 42)] in
  let out (p n : string) (ls : list string) := [MkDirs (bytes_of p); WriteFile (bytes_of n) (flat_map (fun l => bytes_of l ++ [10]) ls)] in
  let deep_file := out "o/Sets"%string "o/Sets/Deep.m3u"%string ["/m/b.mp3"; "/m/a.mp3"]%string in let mix_file := out "o"%string "o/Mix.m3u"%string []%string in
  list_playlists Debug 4 c94_io = Some (Done (sets :: deep ++ mix, false)) /\ list_playlists Debug 4 c96_io = Some (Done (mix ++ sets :: deep, false)) /\
  c95_export c94_io = Some (Done (deep_file ++ mix_file)) /\ c95_export c96_io = Some (Done (mix_file ++ deep_file)).
Proof. cbv zeta. split; [vm_compute; reflexivity|]. split; [vm_compute; reflexivity|]. split; vm_compute; reflexivity. Qed.
(** Finding: siblings are not listed in the order of [sort_order]. *)
Theorem c96_sort_refuted : exists io d s1 s2 o1 o2 rest n1 n2 l1 l2 l3,
  let r1 := RRow KPlaylistTreeNode [VInt 0; VInt 0; VInt s1; VInt 3; VInt 0; VStr n1] o1 in let r2 := RRow KPlaylistTreeNode [VInt 0; VInt 0; VInt s2; VInt 2; VInt 1; VStr n2] o2 in
  db_open io DbPlain = DOk d /\ table_in Debug DbPlain (db_header d) io KPlaylistTreeNode (DOk (r1 :: rest ++ [r2])) /\ s2 < s1 /\ n1 <> n2 /\
  list_playlists Debug 4 io = Some (Done (l1 ++ LNode 0 false n1 :: l2 ++ LNode 0 true n2 :: l3, false)).
Proof.
  assert (exists x, snd (iter_rows Debug KPlaylistTreeNode c96_open) = Some x /\ table_in Debug DbPlain c96_header c96_io KPlaylistTreeNode x) as (x1 & E1 & T1).
  { exact (iter_rows_spec Debug c96_io DbPlain KPlaylistTreeNode c96_open c96_bytes (open_fresh _ _ _ _ c96_opens)). }
  vm_compute in E1. injection E1 as <-.
  match type of T1 with table_in _ _ _ _ _ (DOk [RRow _ [_; _; VInt ?s1; _; _; VStr ?n1] ?o1; ?r; RRow _ [_; _; VInt ?s2; _; _; VStr ?n2] ?o2]) =>
    exists c96_io, c96_open, s1, s2, o1, o2, [r], n1, n2, [], [LTrack 0 1 (TMissing 42)],
      [LNode 1 false (DSShort (bytes_of "Deep")); LTrack 1 1 (TNoArtist 8 (DSShort (bytes_of "Two"))); LTrack 1 7 (TFound (DSShort (bytes_of "Ann")) (DSShort (bytes_of "One")))] end.
  cbv zeta. split; [exact c96_opens|]. split; [exact T1|]. split; [reflexivity|]. split; [discriminate|]. exact (proj1 (proj2 c96_outputs)).
Qed.
Print Assumptions c96_sort_refuted.
Example c96_export_example : exists ns es tr ts ns' es' tr', export_rows Debug c94_io ns es tr /\ export_rows Debug c96_io ns' es' tr' /\ playlist_tree 4 ns = Some (Done ts) /\
  Permutation ns ns' /\ Permutation tr tr' /\ NoDup (map fst tr) /\ Permutation es es' /\ NoDup (map place es) /\ Forall strict ts /\ NoDup (map (fun x => dir_of [] (fst (fst x)) ++ [m3u (snd x)]) (flat_map (playlists []) ts)).
Proof.
  destruct c95_before as (ns & es & tr & ts & HX & ET & _ & ND & -> & -> & ->). destruct c96_example as (n0 & arts & trs & e0 & ns' & arts' & trs' & es' & HL & HL' & PN & _ & _ & _ & _ & _ & PE & DE & _).
  assert (ns = n0 /\ e0 = [mk_pentry 1 41 5; mk_pentry 7 40 5; mk_pentry 1 42 3]) as [-> ->].
  { destruct HX as (d & rn & re & rt & raw & _ & O & Tn & Fn & Te & Fe & _). destruct HL as (d' & rn' & ra' & rt' & re' & HB & O' & Tn' & Fn' & _ & _ & _ & _ & Te' & Fe'). assert (d' = d) as -> by congruence.
    pose proof (open_fresh Debug _ _ _ O) as HF. pose proof (iter_rows_is Debug _ DbPlain _ d _ HB HF Tn) as I1. rewrite (iter_rows_is Debug _ DbPlain _ d _ HB HF Tn') in I1. injection I1 as ->.
    pose proof (iter_rows_is Debug _ DbPlain _ d _ HB HF Te) as I2. rewrite (iter_rows_is Debug _ DbPlain _ d _ HB HF Te') in I2. injection I2 as ->.
    pose proof (forall2_some _ _ _ _ Fn Fn') as EN. pose proof (forall2_some _ _ _ _ Fe Fe') as EE. split; congruence. }
  exists n0, [mk_pentry 1 41 5; mk_pentry 7 40 5; mk_pentry 1 42 3], [(40, bytes_of "/a.mp3"); (41, bytes_of "/b.mp3")]. eexists. exists ns', es', [(41, bytes_of "/b.mp3"); (40, bytes_of "/a.mp3")].
  split; [exact HX|]. split.
  { destruct HL' as (d & rn & ra & rt & re & HB & O & Tn & Fn & _ & _ & Tt & _ & Te & Fe). exists d, rn, re, rt, [(41, DSShort (bytes_of "/b.mp3")); (40, DSShort (bytes_of "/a.mp3"))].
    split; [exact HB|]. split; [exact O|]. split; [exact Tn|]. split; [exact Fn|]. split; [exact Te|]. split; [exact Fe|]. split; [exact Tt|]. rewrite c96_opens in O. injection O as <-.
    pose proof (iter_rows_is Debug c96_io DbPlain _ c96_open _ c96_bytes (open_fresh _ _ _ _ c96_opens) Tt) as I1. vm_compute in I1. injection I1 as <-.
    split; [repeat (apply Forall2_cons; [vm_compute; reflexivity|]); apply Forall2_nil|]. repeat (apply Forall2_cons; [split; vm_compute; reflexivity|]). apply Forall2_nil. }
  split; [exact ET|]. split; [exact PN|]. split; [apply perm_swap|]. split; [exact ND|]. split; [exact PE|]. split; [exact DE|].
  split; [repeat (apply Forall_cons || apply Forall_nil); cbn [strict fold_right]; unfold plain, real, dot, dotdot; repeat split; try (cbn; intuition discriminate); discriminate|].
  cbn [flat_map playlists map fst snd List.app]. repeat (apply NoDup_cons; [cbn [In]; intro H; destruct H as [H|[]]; vm_compute in H; discriminate H|]). apply NoDup_cons; [easy|apply NoDup_nil].
Qed.
