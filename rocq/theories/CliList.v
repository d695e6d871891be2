(** * Listing playlists; guessing types; exporting from a database *)
From Coq Require Import NArith ZArith List Bool Lia String Ascii Sorted Relations.
From Coq Require Import ZifyBool ZifyNat ZifyN.
From Verif Require Import Base BaseFacts Utf Str Schema Oa Rows Page PageRw Db RowShape Setting Device DeviceFacts DeviceTree Cli CliFacts.
Import ListNotations.
Local Close Scope string_scope.
Open Scope N_scope.

(** ** What is printed for one row *)

(** Lines with the strings that are displayed in them; the output ends at the first string that cannot be displayed. *)
Definition item : Type := list dstr * line.
Definition bad (x : item) : bool := existsb dstr_display_panics (fst x).
Fixpoint before_bad (l : list item) : list item := match l with [] => [] | x :: l => if bad x then [] else x :: before_bad l end.
Definition shown (l : list item) : output := (map snd (before_bad l), existsb bad l).

Definition track_item (artists : list (N * dstr)) (tracks : list (N * (N * dstr))) (level : nat) (index id : N) : item :=
  match mm_get tracks id with
  | None => ([], LTrack level index (TMissing id))
  | Some (a, title) =>
    match mm_get artists a with
    | None => ([title], LTrack level index (TNoArtist a title))
    | Some name => ([name; title], LTrack level index (TFound name title))
    end
  end.
Definition row_items (em : list (N * list (N * N))) (artists : list (N * dstr)) (tracks : list (N * (N * dstr))) (x : nat * node) : list item :=
  ([nd_name (snd x)], LNode (fst x) (nd_folder (snd x)) (nd_name (snd x))) ::
  map (fun y => track_item artists tracks (fst x) (fst y) (snd y)) (match mm_get em (nd_id (snd x)) with Some l => l | None => [] end).

Lemma shown_app a b : out_app (shown a) (shown b) = shown (a ++ b).
Proof.
  unfold out_app, shown. cbn [fst snd]. rewrite existsb_app. induction a as [|x a IH]; [easy|]. cbn [existsb before_bad app].
  destruct (bad x) eqn:E; cbn [orb]; [easy|]. destruct (existsb bad a); cbn [orb map app] in *; congruence.
Qed.
Lemma print_shown ds l : print ds l = shown [(ds, l)].
Proof.
  unfold print, shown. cbn [existsb before_bad]. change (bad (ds, l)) with (existsb dstr_display_panics ds). now destruct (existsb dstr_display_panics ds).
Qed.
Lemma print_track_shown artists tracks level i t : print_track artists tracks level i t = shown [track_item artists tracks level i t].
Proof.
  unfold print_track, track_item. destruct (mm_get tracks t) as [[a ti]|]; [|apply print_shown]. destruct (mm_get artists a); apply print_shown.
Qed.
Lemma print_tracks_shown artists tracks level l : forall acc,
  fold_left (fun o x => out_app o (print_track artists tracks level (fst x) (snd x))) l (shown acc) =
  shown (acc ++ map (fun y => track_item artists tracks level (fst y) (snd y)) l).
Proof.
  induction l as [|x l IH]; intro acc; cbn [fold_left map]; [now rewrite app_nil_r|]. rewrite print_track_shown, shown_app, IH. now rewrite <- app_assoc.
Qed.

(** ** The order of the rows *)
Fixpoint opt_flat {A B} (f : A -> option (list B)) (l : list A) : option (list B) :=
  match l with
  | [] => Some []
  | x :: l => match f x, opt_flat f l with Some a, Some b => Some (a ++ b) | _, _ => None end
  end.
Fixpoint visit (depth : nat) (ns : list node) (id : N) (level : nat) : option (list (nat * node)) :=
  match depth with
  | O => None
  | S depth => opt_flat (fun n => option_map (cons (level, n)) (visit depth ns (nd_id n) (S level))) (kids ns id)
  end.

Lemma out_all_flat {A B} (f : A -> option output) (g : A -> option (list B)) (h : B -> list item) l :
  (forall x v, In x l -> g x = Some v -> f x = Some (shown (flat_map h v))) ->
  forall v, opt_flat g l = Some v -> out_all f l = Some (shown (flat_map h v)).
Proof.
  induction l as [|x l IH]; intros H v E; cbn [opt_flat out_all] in *; [injection E as <-; easy|].
  destruct (g x) as [a|] eqn:G; [|easy]. destruct (opt_flat g l) as [b|]; [|easy]. injection E as <-.
  rewrite (H x a (or_introl eq_refl) G). rewrite (IH (fun y w I => H y w (or_intror I)) b eq_refl). rewrite flat_map_app, <- shown_app.
  destruct (shown (flat_map h a)) as [o [|]]; easy.
Qed.
Lemma print_visit em artists tracks ns depth : forall id level v, visit depth ns id level = Some v ->
  print_children depth (by_parent ns) em artists tracks id level = Some (shown (flat_map (row_items em artists tracks) v)).
Proof.
  induction depth as [|depth IH]; intros id level v H; [easy|]. cbn [visit print_children] in *. rewrite by_parent_get.
  eapply out_all_flat; [|exact H]. cbv beta. intros n w _ E.
  destruct (visit depth ns (nd_id n) (S level)) as [u|] eqn:V; [|easy]. injection E as <-. specialize (IH _ _ _ V).
  change ([], false) with (shown []). rewrite print_shown, print_tracks_shown, shown_app. cbn [app flat_map].
  change (([nd_name n], LNode level (nd_folder n) (nd_name n)) :: map (fun y => track_item artists tracks level (fst y) (snd y)) match mm_get em (nd_id n) with Some l => l | None => [] end)
    with (row_items em artists tracks (level, n)).
  rewrite IH, <- shown_app. cbv zeta. destruct (shown (row_items em artists tracks (level, n))) as [o [|]]; easy.
Qed.

(** ** Termination and completeness, by way of the tree of the same rows taken as folders *)
Definition plain (n : node) : node := mk_node (nd_parent n) (nd_id n) 1 (DSShort []).
Lemma kids_plain ns id : kids (map plain ns) id = map plain (kids ns id).
Proof. unfold kids. induction ns as [|n ns IH]; [easy|]. cbn [map filter]. change (nd_parent (plain n)) with (nd_parent n). destruct (nd_parent n =? id); cbn [map]; now rewrite IH. Qed.
Definition as_entry (x : nat * node) : entry := (nd_parent (snd x), nd_id (snd x), true, []).

Lemma visit_tree ns depth : forall id level,
  (visit depth ns id level = None /\ child_nodes depth (by_parent (map plain ns)) id = None) \/
  exists v ts, visit depth ns id level = Some v /\ child_nodes depth (by_parent (map plain ns)) id = Some (Done ts) /\ map as_entry v = flat_map (entries id) ts.
Proof.
  induction depth as [|depth IH]; intros id level; [now left|]. cbn [visit child_nodes]. rewrite by_parent_get, kids_plain.
  assert (forall n, In n (kids ns id) -> nd_parent n = id) as K by (intros n I; apply filter_In in I as [_ I]; lia).
  induction (kids ns id) as [|n l IHl]; [right; now exists [], []|]. cbn [map opt_flat collect_map].
  change (dstr_into_string (nd_name (plain n))) with (@inl (list N) str_err []). change (nd_folder (plain n)) with true. change (nd_id (plain n)) with (nd_id n). cbv iota.
  assert (nd_parent n = id) as P by (apply K; now left).
  destruct (IH (nd_id n) (S level)) as [[E1 E2]|(v & ts & E1 & E2 & E3)]; rewrite E1, E2; cbn [option_map]; [now left|].
  destruct IHl as [[E4 E5]|(w & us & E4 & E5 & E6)]; [intros; apply K; now right| |]; rewrite E4, E5; [now left|].
  right. eexists _, _. split; [reflexivity|]. split; [reflexivity|]. cbn [map flat_map app entries]. rewrite map_app, E3, E6. unfold as_entry at 1. cbn [snd]. rewrite P. reflexivity.
Qed.

(** [b] is a row, folder or not, directly below [a]. *)
Definition under (ns : list node) (a b : N) : Prop := exists n, In n ns /\ nd_parent n = a /\ nd_id n = b.
Lemma below_plain ns a b : below (map plain ns) a b <-> under ns a b.
Proof.
  split.
  - intros (n & I & P & E & _). apply in_map_iff in I as (m & <- & I). now exists m.
  - intros (n & I & P & E). exists (plain n). split; [now apply in_map|easy].
Qed.
Lemma reaches_plain ns a b : reaches (map plain ns) a b <-> clos_refl_trans_1n N (under ns) a b.
Proof.
  split; intro H; (induction H as [|x y z B R IH]; [constructor|]; econstructor; [|exact IH]); now apply below_plain.
Qed.
Lemma strictly_plain ns a b : strictly (map plain ns) a b <-> clos_trans_1n N (under ns) a b.
Proof.
  split; intro H; (induction H as [x y B|x y z B R IH]; [constructor|econstructor 2; [|exact IH]]); now apply below_plain.
Qed.
Lemma ids_plain ns : map nd_id (map plain ns) = map nd_id ns.
Proof. rewrite map_map. reflexivity. Qed.
Lemma plain_decodes ns n : connected (map plain ns) n -> exists s, decodes n s.
Proof. intros [I _]. apply in_map_iff in I as (m & <- & _). exists []. reflexivity. Qed.

Lemma visit_stable ns d d' id level v : (d <= d')%nat -> visit d ns id level = Some v -> visit d' ns id level = Some v.
Proof.
  intro L. induction L as [|d' L IH]; [easy|]. intro H. specialize (IH H). clear -IH. revert id level v IH.
  induction d' as [|d IHd]; intros id level v H; [easy|]. cbn [visit] in H. remember (S d) as e eqn:EE. cbn [visit].
  revert v H. induction (kids ns id) as [|n l IHl]; intros v H; [easy|]. cbn [opt_flat] in *.
  destruct (visit d ns (nd_id n) (S level)) as [u|] eqn:V; [|easy]. cbn [option_map] in H.
  destruct (opt_flat _ l) as [w|] eqn:W; [|easy]. subst e. rewrite (IHd _ _ _ V). cbn [option_map]. rewrite (IHl w eq_refl). easy.
Qed.

(** The levels. *)
Fixpoint path_len (ns : list node) (k : nat) (a b : N) : Prop :=
  match k with O => a = b | S k => exists c, under ns a c /\ path_len ns k c b end.
Lemma visit_levels ns depth : forall id level v, visit depth ns id level = Some v ->
  Forall (fun x => In (snd x) ns /\ exists k, fst x = (level + k)%nat /\ path_len ns k id (nd_parent (snd x))) v.
Proof.
  induction depth as [|depth IH]; intros id level v H; [easy|]. cbn [visit] in H.
  assert (forall n, In n (kids ns id) -> In n ns /\ nd_parent n = id) as K by (intros n I; apply filter_In in I as [I1 I2]; split; [easy|lia]).
  revert v H. induction (kids ns id) as [|n l IHl]; intros v H; [injection H as <-; constructor|]. cbn [opt_flat] in H.
  destruct (visit depth ns (nd_id n) (S level)) as [u|] eqn:V; [|easy]. cbn [option_map] in H. destruct (opt_flat _ l) as [w|] eqn:W; [|easy]. injection H as <-.
  destruct (K n (or_introl eq_refl)) as [KI KP]. cbn [app]. constructor; [split; [easy|]; exists 0%nat; cbn [fst snd path_len]; split; [lia|congruence]|].
  apply Forall_app. split; [|apply IHl; [intros; apply K; now right|easy]]. specialize (IH _ _ _ V). rewrite Forall_forall in *. intros x X. destruct (IH x X) as (I & k & E & P).
  split; [easy|]. exists (S k). split; [lia|]. exists (nd_id n). split; [now exists n|easy].
Qed.

(** Parents: the last row above of a lower level. *)
Definition child_ok (level : nat) (id : N) (pre : list (nat * node)) (x : nat * node) : Prop :=
  (fst x = level /\ nd_parent (snd x) = id) \/
  exists p, last_of (fun y => (fst y < fst x)%nat) pre p /\ S (fst p) = fst x /\ nd_id (snd p) = nd_parent (snd x).
Fixpoint children_ok (level : nat) (id : N) (pre v : list (nat * node)) : Prop :=
  match v with [] => True | x :: v => child_ok level id pre x /\ children_ok level id (pre ++ [x]) v end.
Lemma children_ok_app level id a : forall pre b, children_ok level id pre (a ++ b) <-> children_ok level id pre a /\ children_ok level id (pre ++ a) b.
Proof.
  induction a as [|x a IH]; intros pre b; cbn [app children_ok]; [rewrite app_nil_r; tauto|]. rewrite IH, <- app_assoc. cbn [app]. tauto.
Qed.
Lemma last_of_front {A} (P : A -> Prop) q l x : last_of P l x -> last_of P (q ++ l) x.
Proof. intros (l1 & l2 & -> & H). exists (q ++ l1), l2. now rewrite <- app_assoc. Qed.
Lemma children_ok_front level id q v : forall pre, children_ok level id pre v -> children_ok level id (q ++ pre) v.
Proof.
  induction v as [|x v IH]; intro pre; cbn [children_ok]; [easy|]. intros [H1 H2]. split; [|rewrite <- app_assoc; now apply IH].
  destruct H1 as [H1|(p & L & H1)]; [now left|right]. exists p. split; [now apply last_of_front|easy].
Qed.
Lemma children_ok_node level id m u : forall pre, nd_parent m = id -> Forall (fun x => (S level <= fst x)%nat) (pre ++ u) ->
  children_ok (S level) (nd_id m) pre u -> children_ok level id ((level, m) :: pre) u.
Proof.
  induction u as [|x u IH]; intros pre P F; cbn [children_ok]; [easy|]. intros [H1 H2]. split.
  - right. destruct H1 as [[E1 E2]|(p & L & H1)].
    + exists (level, m). cbn [fst snd]. split; [|split; [lia|easy]]. exists [], pre. split; [easy|]. cbn [fst]. split; [lia|].
      apply Forall_app in F as [F _]. eapply Forall_impl; [|exact F]. cbv beta. lia.
    + exists p. split; [now apply (last_of_front _ [(level, m)])|easy].
  - change (((level, m) :: pre) ++ [x]) with ((level, m) :: pre ++ [x]). apply IH; [easy|now rewrite <- app_assoc|easy].
Qed.
Lemma visit_parents ns depth : forall id level v, visit depth ns id level = Some v -> children_ok level id [] v.
Proof.
  induction depth as [|depth IH]; intros id level v H; [easy|]. cbn [visit] in H.
  assert (forall n, In n (kids ns id) -> nd_parent n = id) as K by (intros n I; apply filter_In in I as [I1 I2]; lia).
  revert v H. induction (kids ns id) as [|n l IHl]; intros v H; [injection H as <-; easy|]. cbn [opt_flat] in H.
  destruct (visit depth ns (nd_id n) (S level)) as [u|] eqn:V; [|easy]. cbn [option_map] in H. destruct (opt_flat _ l) as [w|] eqn:W; [|easy]. injection H as <-.
  change ((level, n) :: u ++ w) with (((level, n) :: u) ++ w). apply children_ok_app. split.
  - cbn [children_ok app]. assert (nd_parent n = id) as P by (apply K; now left). split; [now left|]. apply children_ok_node; [easy| |now apply IH].
    pose proof (visit_levels _ _ _ _ _ V) as LV. eapply Forall_impl; [|exact LV]. cbv beta. intros x (_ & k & E & _). lia.
  - rewrite <- (app_nil_r ([] ++ _)). apply children_ok_front. apply IHl; [intros; apply K; now right|easy].
Qed.

Lemma list_complete_visit em artists tracks ns : NoDup (map nd_id ns) /\ ~ In 0 (map nd_id ns) -> exists v : list (nat * node), visit (S (List.length ns)) ns 0 0 = Some v /\
  (forall depth, (List.length ns < depth)%nat -> print_children depth (by_parent ns) em artists tracks 0 0 = Some (shown (flat_map (row_items em artists tracks) v))) /\
  NoDup (map snd v) /\
  (forall n, In n (map snd v) <-> In n ns /\ clos_refl_trans_1n N (under ns) 0 (nd_parent n)) /\
  (forall k n, In (k, n) v -> path_len ns k 0 (nd_parent n)) /\
  (forall k n l1 l2, v = l1 ++ (k, n) :: l2 -> (k = 0%nat /\ nd_parent n = 0) \/
     exists p, last_of (fun y => (fst y < k)%nat) l1 p /\ S (fst p) = k /\ nd_id (snd p) = nd_parent n) /\
  (forall p, clos_refl_trans_1n N (under ns) 0 p -> filter (fun n => nd_parent n =? p) (map snd v) = filter (fun n => nd_parent n =? p) ns).
Proof.
  intro D. assert (distinct_ids (map plain ns)) as D' by (unfold distinct_ids; now rewrite ids_plain).
  destruct (complete (map plain ns) D' (plain_decodes ns)) as (ts & HT & ND & MEM & ORD). rewrite map_length in HT.
  destruct (visit_tree ns (S (List.length ns)) 0 0) as [[_ E]|(v & ts' & E1 & E2 & E3)].
  { unfold playlist_tree in HT. rewrite HT in E by lia. easy. }
  assert (ts' = ts) as ->. { unfold playlist_tree in HT. rewrite HT in E2 by lia. congruence. }
  rewrite <- E3 in ND, MEM, ORD. clear E2 E3 HT.
  pose proof (visit_levels _ _ _ _ _ E1) as LV. rewrite Forall_forall in LV.
  assert (forall n, In n (map snd v) -> In n ns) as IV by (intros n I; apply in_map_iff in I as (x & <- & X); now apply (LV x X)).
  assert (map id_of (map as_entry v) = map nd_id (map snd v)) as EI by (rewrite !map_map; reflexivity).
  rewrite EI in ND. destruct D as [DN DZ].
  exists v. split; [exact E1|]. split; [intros depth L; apply print_visit; now apply visit_stable with (S (List.length ns))|].
  split; [now apply NoDup_map_inv in ND|]. split; [|split; [|split]].
  - intro n. split.
    + intro I. split; [now apply IV|]. apply in_map_iff in I as (x & <- & X). apply reaches_plain.
      destruct (proj1 (MEM (as_entry x)) (in_map _ _ _ X)) as (m & [_ R] & S). now rewrite <- (shows_parent _ _ S) in R.
    + intros [I R]. apply reaches_plain in R.
      assert (In (nd_parent n, nd_id n, true, []) (map as_entry v)) as J.
      { apply MEM. exists (plain n). split; [split; [now apply in_map|easy]|]. exists []. easy. }
      apply in_map_iff in J as (x & EX & X). unfold as_entry in EX. injection EX as EP EN.
      apply in_map_iff. exists x. split; [|easy]. apply (nodup_inj nd_id ns); [easy|now apply (LV x X)|easy|easy].
  - intros k n X. destruct (LV (k, n) X) as (_ & k' & E & P). cbn [fst snd] in *. rewrite E. exact P.
  - intros k n l1 l2 E. pose proof (visit_parents _ _ _ _ _ E1) as CH. rewrite E in CH. apply children_ok_app in CH as [_ [CH _]]. exact CH.
  - intros p R. apply reaches_plain in R. specialize (ORD p R).
    assert (map nd_id (filter (fun n => nd_parent n =? p) (map snd v)) = map nd_id (filter (fun n => nd_parent n =? p) ns)) as EQ.
    { transitivity (map id_of (filter (fun e => parent_of e =? p) (map as_entry v))).
      - clear. induction v as [|x v IH]; [easy|]. cbn [map filter]. change (parent_of (as_entry x)) with (nd_parent (snd x)). destruct (nd_parent (snd x) =? p); cbn [map]; now rewrite IH.
      - change (filter (fun n => nd_parent n =? p) (map plain ns)) with (kids (map plain ns) p) in ORD. rewrite kids_plain in ORD. unfold kids in ORD.
        revert ORD. generalize (filter (fun e => parent_of e =? p) (map as_entry v)). induction (filter (fun n => nd_parent n =? p) ns) as [|n l IH]; intros es F; inversion F; subst; [easy|].
        cbn [map]. f_equal; [|now apply IH]. now rewrite (shows_id _ _ H1). }
    assert (forall n, In n (filter (fun n => nd_parent n =? p) (map snd v)) -> In n ns) as I1 by (intros n I; apply filter_In in I as [I _]; auto).
    assert (forall n, In n (filter (fun n => nd_parent n =? p) ns) -> In n ns) as I2 by (intros n I; now apply filter_In in I as [I _]).
    revert EQ I1 I2. generalize (filter (fun n => nd_parent n =? p) (map snd v)) (filter (fun n => nd_parent n =? p) ns). clear -DN.
    induction l as [|a l IH]; intros [|c l'] E I1 I2; try easy. cbn [map] in E. injection E as E0 E1. f_equal.
    + apply (nodup_inj nd_id ns); [easy|apply I1; now left|apply I2; now left|easy].
    + apply IH; [easy|intros; apply I1; now right|intros; apply I2; now right].
Qed.
Lemma list_complete em artists tracks ns : NoDup (map nd_id ns) /\ ~ In 0 (map nd_id ns) -> exists v : list (nat * node),
  (forall depth, (List.length ns < depth)%nat -> print_children depth (by_parent ns) em artists tracks 0 0 = Some (shown (flat_map (row_items em artists tracks) v))) /\
  NoDup (map snd v) /\
  (forall n, In n (map snd v) <-> In n ns /\ clos_refl_trans_1n N (under ns) 0 (nd_parent n)) /\
  (forall k n, In (k, n) v -> path_len ns k 0 (nd_parent n)) /\
  (forall k n l1 l2, v = l1 ++ (k, n) :: l2 -> (k = 0%nat /\ nd_parent n = 0) \/
     exists p, last_of (fun y => (fst y < k)%nat) l1 p /\ S (fst p) = k /\ nd_id (snd p) = nd_parent n) /\
  (forall p, clos_refl_trans_1n N (under ns) 0 p -> filter (fun n => nd_parent n =? p) (map snd v) = filter (fun n => nd_parent n =? p) ns).
Proof. intro D. destruct (list_complete_visit em artists tracks ns D) as (v & _ & H). now exists v. Qed.

(** Without strings that cannot be displayed: endless iff there is a cycle of rows, folders or not. *)
Definition displayable (ds : list dstr) : Prop := forall d, In d ds -> dstr_display_panics d = false.
Section Endless.
  Context (em : list (N * list (N * N))) (artists : list (N * dstr)) (tracks : list (N * (N * dstr))) (ns : list node).
  Hypothesis names_ok : displayable (map nd_name ns).
  Hypothesis artists_ok : displayable (map snd artists).
  Hypothesis tracks_ok : displayable (map (fun x => snd (snd x)) tracks).

  Lemma mm_get_in {V} (m : list (N * V)) k v : mm_get m k = Some v -> In (k, v) m.
  Proof. induction m as [|[k' w] m IH]; cbn [mm_get]; [easy|]. destruct (N.eqb_spec k' k) as [->|_]; [intros [= <-]; now left|right; auto]. Qed.
  Lemma row_items_ok x : In (snd x) ns -> existsb bad (row_items em artists tracks x) = false.
  Proof.
    intro I. unfold row_items. cbn [existsb]. unfold bad at 1. cbn [fst existsb]. rewrite (names_ok (nd_name (snd x))) by now apply in_map. cbn [orb].
    induction (match mm_get em (nd_id (snd x)) with Some l => l | None => [] end) as [|y l IH]; [easy|]. cbn [map existsb]. rewrite IH, orb_false_r.
    unfold track_item. destruct (mm_get tracks (snd y)) as [[a ti]|] eqn:T; [|easy]. apply mm_get_in in T.
    assert (dstr_display_panics ti = false) as E by (apply tracks_ok; apply in_map_iff; now exists (snd y, (a, ti))).
    destruct (mm_get artists a) as [na|] eqn:A; unfold bad; cbn [fst existsb]; rewrite E; [|easy]. apply mm_get_in in A.
    rewrite (artists_ok na); [easy|]. apply in_map_iff. now exists (a, na).
  Qed.
  Lemma print_deep depth : forall id level,
    (print_children depth (by_parent ns) em artists tracks id level = None <-> deep (map plain ns) depth id) /\
    forall o, print_children depth (by_parent ns) em artists tracks id level = Some o -> snd o = false.
  Proof.
    induction depth as [|depth IH]; intros id level; [now split|]. cbn [print_children deep]. rewrite by_parent_get.
    set (f := fun n : node => _).
    assert (forall n, In n ns -> f n = match print_children depth (by_parent ns) em artists tracks (nd_id n) (S level) with
      | Some o2 => Some (out_app (shown (row_items em artists tracks (level, n))) o2) | None => None end) as EF.
    { intros n I. unfold f. change ([], false) with (shown []). rewrite print_shown, print_tracks_shown, shown_app. cbn [app].
      change (([nd_name n], LNode level (nd_folder n) (nd_name n)) :: map (fun y => track_item artists tracks level (fst y) (snd y)) match mm_get em (nd_id n) with Some l => l | None => [] end)
        with (row_items em artists tracks (level, n)). cbv zeta.
      replace (snd (shown (row_items em artists tracks (level, n)))) with false; [easy|]. symmetry. now apply row_items_ok. }
    assert (forall n, In n (kids ns id) -> In n ns /\ nd_parent n = id) as K by (intros n I; apply filter_In in I as [I1 I2]; split; [easy|lia]).
    assert (forall n o, In n (kids ns id) -> f n = Some o -> snd o = false) as CL.
    { intros n o I E. destruct (K n I) as [IN _]. rewrite EF in E by easy. destruct (IH (nd_id n) (S level)) as [_ IHo].
      destruct (print_children depth _ _ _ _ _ _) as [o2|] eqn:P; [|easy]. injection E as <-. unfold out_app.
      replace (snd (shown (row_items em artists tracks (level, n)))) with false by (symmetry; now apply row_items_ok). cbn [snd]. now apply IHo. }
    assert (forall l, incl l (kids ns id) -> (out_all f l = None <-> exists n, In n l /\ deep (map plain ns) depth (nd_id n)) /\ forall o, out_all f l = Some o -> snd o = false) as G.
    { induction l as [|n l IHl]; intro INC; [split; [split; [easy|intros (n & [] & _)]|intros o [= <-]; easy]|].
      destruct IHl as [IHl1 IHl2]; [intros x X; apply INC; now right|]. assert (In n (kids ns id)) as IK by (apply INC; now left). destruct (K n IK) as [IN _].
      cbn [out_all]. destruct (f n) as [[o pan]|] eqn:F.
      - assert (pan = false) as -> by exact (CL n _ IK F). rewrite EF in F by easy. destruct (IH (nd_id n) (S level)) as [IHn _].
        destruct (print_children depth _ _ _ _ _ _) as [o2|] eqn:P; [|easy]. split.
        + split.
          * intro H. destruct (out_all f l) as [o3|]; [easy|]. destruct IHl1 as [IHl1 _]. destruct (IHl1 eq_refl) as (m & M & DM). exists m. split; [now right|easy].
          * intros (m & [<-|M] & DM); [apply IHn in DM; easy|]. replace (out_all f l) with (@None output); [easy|]. symmetry. apply IHl1. now exists m.
        + intros o' H. destruct (out_all f l) as [o3|]; [|easy]. injection H as <-. cbn [out_app snd]. now apply IHl2.
      - rewrite EF in F by easy. destruct (IH (nd_id n) (S level)) as [IHn _]. destruct (print_children depth _ _ _ _ _ _) as [o2|] eqn:P; [easy|].
        split; [|easy]. split; [|easy]. intros _. exists n. split; [now left|]. now apply IHn. }
    destruct (G (kids ns id) (incl_refl _)) as [G1 G2]. fold f. split; [|exact G2]. rewrite G1. split.
    - intros (n & I & DN). destruct (K n I) as [IN P]. exists (plain n). repeat split; [now apply in_map|easy|easy].
    - intros (n' & I & P & _ & DN). apply in_map_iff in I as (n & <- & I). exists n. split; [|easy]. apply filter_In. split; [easy|]. cbn in P. lia.
  Qed.
  Lemma list_forever : (forall depth, print_children depth (by_parent ns) em artists tracks 0 0 = None) <->
    exists x, clos_refl_trans_1n N (under ns) 0 x /\ clos_trans_1n N (under ns) x x.
  Proof.
    split.
    - intro H. specialize (H (S (List.length ns))). apply print_deep in H. apply deep_cycle in H as (x & R & C); [|rewrite map_length; lia].
      exists x. split; [now apply reaches_plain|now apply strictly_plain].
    - intros (x & R & C) depth. apply print_deep. apply cycle_deep with x; [now apply strictly_plain|now apply reaches_plain].
  Qed.
End Endless.

(** ** File names *)
Definition real (c : path) : bool := negb (bytes_eqb c [] || bytes_eqb c [46]).
Lemma real_spec c : real c = true <-> c <> [] /\ c <> [46].
Proof. unfold real. rewrite negb_true_iff, orb_false_iff, !bytes_eqb_false. easy. Qed.
Lemma file_name_dir dir name : ~ In 47 name -> name <> [] -> name <> [46] -> name <> [46; 46] -> file_name (dir ++ 47 :: name) = Some name.
Proof.
  intros H1 H2 H3 H4. unfold file_name. change (fun c => negb (bytes_eqb c [] || bytes_eqb c [46])) with real. rewrite split_app, (split_name name) by easy. rewrite filter_app. cbn [filter].
  replace (real name) with true by (symmetry; now apply real_spec). rewrite rev_app_distr. cbn [rev app]. now replace (bytes_eqb name [46; 46]) with false by (symmetry; now apply bytes_eqb_false).
Qed.
Lemma file_name_self name : ~ In 47 name -> name <> [] -> name <> [46] -> name <> [46; 46] -> file_name name = Some name.
Proof.
  intros H1 H2 H3 H4. unfold file_name. change (fun c => negb (bytes_eqb c [] || bytes_eqb c [46])) with real. rewrite split_name by easy. cbn [filter].
  replace (real name) with true by (symmetry; now apply real_spec). cbn [rev app]. now replace (bytes_eqb name [46; 46]) with false by (symmetry; now apply bytes_eqb_false).
Qed.
Lemma file_name_slash p : file_name (p ++ [47]) = file_name p.
Proof. unfold file_name. rewrite split_app, filter_app. cbn. now rewrite app_nil_r. Qed.
Lemma file_name_dot p : file_name (p ++ [47; 46]) = file_name p.
Proof. unfold file_name. change [47; 46] with (47 :: [46]). rewrite split_app, filter_app. cbn. now rewrite app_nil_r. Qed.
Lemma file_name_dotdot p : file_name (p ++ [47; 46; 46]) = None.
Proof. unfold file_name. change [47; 46; 46] with (47 :: [46; 46]). rewrite split_app, filter_app, rev_app_distr. reflexivity. Qed.
Lemma split_no_slash p : Forall (fun c => ~ In 47 c) (split p).
Proof.
  induction p as [|c p IH]; cbn [split]; [now repeat constructor|]. destruct (N.eqb_spec c 47) as [E|E]; [now constructor|].
  destruct (split p) as [|x xs]; [repeat constructor; intros [->|[]]; now apply E|]. inversion IH; subst. constructor; [|easy]. intros [->|]; [now apply E|easy].
Qed.
Lemma file_name_inv p f : file_name p = Some f -> ~ In 47 f /\ f <> [] /\ f <> [46] /\ f <> [46; 46].
Proof.
  unfold file_name. change (fun c => negb (bytes_eqb c [] || bytes_eqb c [46])) with real. destruct (rev _) as [|c l] eqn:E; [discriminate|]. destruct (bytes_eqb c [46; 46]) eqn:B; [discriminate|]. intros [= <-].
  assert (In c (filter real (split p))) as I by (apply in_rev; unfold path in *; rewrite E; now left). apply filter_In in I as [I R]. apply real_spec in R as [R1 R2].
  pose proof (split_no_slash p) as S. rewrite Forall_forall in S. repeat split; [now apply S|easy|easy|now apply bytes_eqb_false].
Qed.

(** ** Types *)
Lemma db_guess p : exists r, guess_db_type p None = Ok r /\
  (r = Some DbPlain <-> file_name p = Some (bytes_of "export.pdb")) /\ (r = Some DbExt <-> file_name p = Some (bytes_of "exportExt.pdb")).
Proof.
  unfold guess_db_type. cbn [res_bind]. destruct (file_name p) as [f|]; [|exists None; now repeat split].
  destruct (bytes_eqb f (bytes_of "export.pdb")) eqn:E1.
  - apply bytes_eqb_eq in E1 as ->. eexists. split; [reflexivity|]. now repeat split.
  - apply bytes_eqb_false in E1. destruct (bytes_eqb f (bytes_of "exportExt.pdb")) eqn:E2.
    + apply bytes_eqb_eq in E2 as ->. eexists. split; [reflexivity|]. split; [split; congruence|easy].
    + apply bytes_eqb_false in E2. eexists. split; [reflexivity|]. split; split; congruence.
Qed.
Lemma db_option p f t : file_name p = Some f ->
  guess_db_type p (Some (match t with DbPlain => "plain" | DbExt => "ext" end)%string) = Ok (Some t).
Proof. intro H. unfold guess_db_type. destruct t; cbn [String.eqb Ascii.eqb Bool.eqb res_bind]; rewrite H; now destruct (if bytes_eqb f (bytes_of "export.pdb") then _ else _). Qed.
Lemma db_no_name p t : file_name p = None -> guess_db_type p (Some (match t with DbPlain => "plain" | DbExt => "ext" end)%string) = Ok None.
Proof. intro H. unfold guess_db_type. destruct t; cbn [String.eqb Ascii.eqb Bool.eqb res_bind]; now rewrite H. Qed.

Lemma from_filename_spec p t : from_filename p = Some t <-> file_name p = Some (bytes_of (setting_file t)).
Proof.
  unfold from_filename. destruct (file_name p) as [f|]; [|easy].
  destruct (bytes_eqb f (bytes_of "DEVSETTING.DAT")) eqn:E1. { apply bytes_eqb_eq in E1 as ->. destruct t; split; easy. }
  destruct (bytes_eqb f (bytes_of "DJMMYSETTING.DAT")) eqn:E2. { apply bytes_eqb_eq in E2 as ->. destruct t; split; easy. }
  destruct (bytes_eqb f (bytes_of "MYSETTING.DAT")) eqn:E3. { apply bytes_eqb_eq in E3 as ->. destruct t; split; easy. }
  destruct (bytes_eqb f (bytes_of "MYSETTING2.DAT")) eqn:E4. { apply bytes_eqb_eq in E4 as ->. destruct t; split; easy. }
  apply bytes_eqb_false in E1, E2, E3, E4. destruct t; split; try easy; cbn [setting_file]; congruence.
Qed.
Definition option_of (t : stype) : string := match t with TDev => "devsetting" | TDjm => "djmmysetting" | TMy => "mysetting" | TMy2 => "mysetting2" end.
Lemma setting_guess p : exists r, guess_setting_type p None = Ok r /\ forall t, r = Some t <-> file_name p = Some (bytes_of (setting_file t)).
Proof.
  unfold guess_setting_type. cbn [res_bind]. destruct (file_name p) as [f|] eqn:E; [|exists None; easy].
  destruct (file_name_inv _ _ E) as (H1 & H2 & H3 & H4). pose proof (file_name_self f H1 H2 H3 H4) as HF.
  exists (from_filename f). split; [now destruct (from_filename f)|]. intro t. rewrite from_filename_spec, HF. easy.
Qed.
Lemma setting_option p f t : file_name p = Some f -> guess_setting_type p (Some (option_of t)) = Ok (Some t).
Proof. intro H. unfold guess_setting_type. destruct t; cbn [option_of String.eqb Ascii.eqb Bool.eqb res_bind]; rewrite H; now destruct (from_filename f). Qed.
Lemma setting_no_name p t : file_name p = None -> guess_setting_type p (Some (option_of t)) = Ok None.
Proof. intro H. unfold guess_setting_type. destruct t; cbn [option_of String.eqb Ascii.eqb Bool.eqb res_bind]; now rewrite H. Qed.

(** ** Exporting from a database *)
Lemma pentry_of_shaped r : row_shaped r -> is_variant KPlaylistEntry r = true -> exists e, pentry_of_row r = Some e.
Proof.
  destruct r as [k vs oc|]; [|easy]. intros [F O] V. cbn [is_variant] in V. destruct (rkind_eq_dec KPlaylistEntry k) as [<-|]; [|easy].
  cbn [row_fields] in F.
  repeat match goal with H : Forall2 _ (_ :: _) _ |- _ => inversion H; clear H; subst | H : Forall2 _ [] _ |- _ => inversion H; clear H; subst end.
  repeat match goal with H : vshape ?f ?v |- _ => destruct v; try contradiction H; clear H end. cbn. eauto.
Qed.
Lemma track_of_shaped r : row_shaped r -> is_variant KTrack r = true -> exists x, track_of_row r = Some x.
Proof.
  destruct r as [k vs oc|]; [|easy]. intros [F O] V. cbn [is_variant] in V. destruct (rkind_eq_dec KTrack k) as [<-|]; [|easy].
  cbn [row_oarr] in O. destruct oc as [c|]; [|easy].
  assert (exists i, nth_error vs 20 = Some (VInt i)) as [i HI].
  { cbn [row_fields] in F. clear O. do 20 (inversion F as [|? ? ? ? _ F']; clear F; rename F' into F; subst). inversion F as [|? v ? ? HV _]; subst. cbn [nth_error]. destruct v; try easy. eauto. }
  assert (exists s, nth_error (oa_items c) 20 = Some s) as [s HS].
  { destruct (nth_error (oa_items c) 20) eqn:E; [eauto|]. apply nth_error_None in E. lia. }
  exists (i, s). cbn [track_of_row]. now rewrite HI, HS.
Qed.
Lemma table_rows_ok {A} b k (f : row -> option A) d rows : (forall r, row_shaped r -> is_variant k r = true -> exists x, f r = Some x) ->
  db_shaped d -> snd (iter_rows b k d) = Some (DOk rows) -> exists l, table_rows b k f d = Done l /\ Forall2 (fun r x => f r = Some x) rows l.
Proof.
  intros HF HD HR. destruct (iter_rows_shaped b k d HD) as [_ HS]. specialize (HS rows HR). rewrite Forall_forall in HS.
  destruct (all_some_map f rows) as (l & EL & F); [intros r IR; destruct (HS r IR); now apply HF|].
  exists l. split; [|easy]. unfold table_rows. now rewrite HR, EL.
Qed.
(** [into_string] of each path, up to the first error. *)
Fixpoint decode_tracks (l : list (N * dstr)) : option (list (N * list N)) :=
  match l with
  | [] => Some []
  | (i, s) :: l => match dstr_into_string s with inl p => option_map (cons (i, p)) (decode_tracks l) | inr _ => None end
  end.
Lemma decode_rows_of rows raw : Forall2 (fun r x => track_of_row r = Some x) rows raw -> decode_rows rows = match decode_tracks raw with Some tr => Done tr | None => Fail PEncoding end.
Proof.
  induction 1 as [|r [i s] rows raw E _ IH]; [easy|]. cbn [decode_rows decode_tracks]. rewrite E, IH. destruct (dstr_into_string s); [|easy]. now destruct (decode_tracks raw).
Qed.
Lemma decode_tracks_ok l : (forall i s, In (i, s) l -> exists p, dstr_into_string s = inl p) ->
  exists tr, decode_tracks l = Some tr /\ Forall2 (fun x y => fst x = fst y /\ dstr_into_string (snd x) = inl (snd y)) l tr.
Proof.
  induction l as [|[i s] l IH]; intro H; [exists []; split; [easy|constructor]|]. destruct (H i s (or_introl eq_refl)) as [p E].
  destruct IH as (tr & ET & F); [intros j t I; apply (H j t); now right|]. exists ((i, p) :: tr). cbn [decode_tracks]. rewrite E, ET. split; [easy|]. now constructor.
Qed.
(** The lazy iterator and the collected rows. *)
Definition end_of (l : list row) (y : dres unit) : dres (list row) := match y with DOk _ => DOk l | DErr e => DErr e | DPanic => DPanic end.
Lemma stream_n_rows b k : forall n d it, option_map (fun x => end_of (fst x) (snd x)) (stream_n b k n d it) = snd (rows_n b k n d it).
Proof.
  induction n as [|n IH]; intros d it; cbn [stream_n rows_n]; [easy|]. destruct (iter_next b d it) as [[d1 it1] [[[i p]|]|e|]]; try easy. unfold rows_as.
  destruct (forallb (is_variant k) (rows_of_page p)); [|easy]. specialize (IH d1 it1). destruct (rows_n b k n d1 it1) as [d2 r]. cbn [snd] in IH. subst r.
  destruct (stream_n b k n d1 it1) as [[l [[]|e|]]|]; easy.
Qed.
Lemma stream_rows b k d : option_map (fun x => end_of (fst x) (snd x)) (row_stream b k d) = snd (iter_rows b k d).
Proof. unfold row_stream, iter_rows. destruct (iter_pages d (PT k)) as [it|e|]; [|easy|easy]. apply stream_n_rows. Qed.
Lemma of_variant_in k r l : In r (of_variant k l) -> In r l /\ is_variant k r = true.
Proof.
  induction l as [|x l IH]; [easy|]. cbn [of_variant]. destruct (is_variant k x) eqn:E; [|easy]. intros [->|I]; [split; [now left|easy]|]. destruct (IH I). split; [now right|easy].
Qed.
Lemma stream_n_shaped b k : forall n d it l y, db_shaped d -> stream_n b k n d it = Some (l, y) -> Forall (fun r => row_shaped r /\ is_variant k r = true) l.
Proof.
  induction n as [|n IH]; intros d it l y HD; cbn [stream_n]; [easy|].
  destruct (iter_next b d it) as [[d1 it1] r] eqn:E. apply iter_next_shaped in E as [HD1 HP]; [|easy].
  destruct r as [[[i p]|]|e|]; try (intros [= <- <-]; constructor). specialize (HP i p eq_refl).
  assert (forall x, In x (rows_of_page p) -> row_shaped x) as HX.
  { intros x HX. unfold rows_of_page, page_shaped in *. destruct (pg_content p) as [c|c]; [|easy]. apply in_map_iff in HX as (z & <- & HY). rewrite Forall_forall in HP. now apply HP. }
  destruct (forallb (is_variant k) (rows_of_page p)) eqn:FV.
  - destruct (stream_n b k n d1 it1) as [[l2 y2]|] eqn:ES; [|easy]. intros [= <- <-]. cbn [fst]. apply Forall_app. split; [|exact (IH d1 it1 l2 y2 HD1 ES)].
    rewrite forallb_forall in FV. apply Forall_forall. intros x I. split; [now apply HX|now apply FV].
  - intros [= <- <-]. apply Forall_forall. intros x I. apply of_variant_in in I as [I V]. split; [now apply HX|easy].
Qed.
Lemma stream_shaped b k d l y : db_shaped d -> row_stream b k d = Some (l, y) -> Forall (fun r => row_shaped r /\ is_variant k r = true) l.
Proof. intros HD. unfold row_stream. destruct (iter_pages d (PT k)) as [it|e|]; [now apply stream_n_shaped| |]; intros [= <- <-]; constructor. Qed.
Lemma stream_values {A} b k (f : row -> option A) d l y : (forall r, row_shaped r -> is_variant k r = true -> exists x, f r = Some x) ->
  db_shaped d -> row_stream b k d = Some (l, y) -> exists m, all_some (map f l) = Some m /\ Forall2 (fun r x => f r = Some x) l m.
Proof.
  intros HF HD HR. pose proof (stream_shaped b k d l y HD HR) as HS. rewrite Forall_forall in HS. apply all_some_map. intros r IR. destruct (HS r IR). now apply HF.
Qed.
Lemma stream_total b k d : exists l y, row_stream b k d = Some (l, y) /\ snd (iter_rows b k d) = Some (end_of l y).
Proof.
  pose proof (stream_rows b k d) as E. destruct (row_stream b k d) as [[l y]|]; [exists l, y; split; [easy|now rewrite <- E]|]. cbn [option_map] in E.
  exfalso. now apply (iter_rows_total b k d).
Qed.
Lemma stream_end b k d rows : snd (iter_rows b k d) = Some (DOk rows) -> row_stream b k d = Some (rows, DOk tt).
Proof. intro E. destruct (stream_total b k d) as (l & [[]|e|] & E1 & E2); cbn [end_of] in E2; rewrite E in E2; try easy. injection E2 as <-. exact E1. Qed.
Lemma track_paths_ok b d rows : db_shaped d -> snd (iter_rows b KTrack d) = Some (DOk rows) -> exists raw, Forall2 (fun r x => track_of_row r = Some x) rows raw /\
  track_paths b d = Some (match decode_tracks raw with Some tr => Done tr | None => Fail PEncoding end).
Proof.
  intros HD HR. apply stream_end in HR. destruct (stream_values b KTrack track_of_row d rows _ track_of_shaped HD HR) as (raw & E & F). exists raw. split; [exact F|].
  unfold track_paths. rewrite HR, (decode_rows_of _ _ F). now destruct (decode_tracks raw).
Qed.
(** If the three tables are readable and the paths of tracks decode, the operations are those for the tree and the rows. *)
Lemma export_rows b d out canon rows1 rows2 rows3 : db_shaped d ->
  snd (iter_rows b KPlaylistTreeNode d) = Some (DOk rows1) ->
  let d1 := fst (iter_rows b KPlaylistTreeNode d) in snd (iter_rows b KPlaylistEntry d1) = Some (DOk rows2) ->
  let d2 := fst (iter_rows b KPlaylistEntry d1) in snd (iter_rows b KTrack d2) = Some (DOk rows3) ->
  exists ns es raw, Forall2 (fun r n => node_of_row r = Some n) rows1 ns /\ Forall2 (fun r e => pentry_of_row r = Some e) rows2 es /\
    Forall2 (fun r x => track_of_row r = Some x) rows3 raw /\
    ((forall i s, In (i, s) raw -> exists p, dstr_into_string s = inl p) -> exists tr,
       Forall2 (fun x y => fst x = fst y /\ dstr_into_string (snd x) = inl (snd y)) raw tr /\
       forall depth, export b depth d out canon =
         match playlist_tree depth ns with
         | Some (Done ts) => Some (Done (flat_map (fun t => walk (content canon (entries_map es) (tracks_map tr)) t out) ts))
         | Some (Fail e) => Some (Fail e) | Some Crash => Some Crash | None => None
         end).
Proof.
  intros HD H1 d1 H2 d2 H3. destruct (get_playlists_rows b d rows1 HD H1) as (ns & F1 & G1).
  assert (db_shaped d1) as HD1 by now apply iter_rows_shaped. assert (db_shaped d2) as HD2 by now apply iter_rows_shaped.
  destruct (table_rows_ok b KPlaylistEntry pentry_of_row d1 rows2 pentry_of_shaped HD1 H2) as (es & E2 & F2).
  destruct (track_paths_ok b d2 rows3 HD2 H3) as (raw & F3 & E3).
  exists ns, es, raw. repeat (split; [easy|]). intro HT. destruct (decode_tracks_ok raw HT) as (tr & ET & FT). exists tr. split; [easy|].
  intro depth. unfold export. rewrite G1. fold d1. rewrite E2. fold d2. rewrite E3, ET. reflexivity.
Qed.
