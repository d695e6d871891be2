(** * From a row that is deleted to the listing and the export of the playlists *)
From Coq Require Import NArith ZArith List Bool Lia Sorted Relations String.
From Coq Require Import ZifyBool ZifyNat ZifyN.
From Verif Require Import Base BaseFacts Segs Utf Str StrFacts StrGood Schema SchemaFacts Oa OaFacts OaSpec Rows RowFacts RowSpec Page BitFacts PageFacts PageRw PageSpec Alloc AllocFacts AllocSpec
  Db DbFacts DbFlush DbFresh RowShape Reread Progress Insert Session Delete Revise Dump DumpFacts Setting Device DeviceFacts DeviceTree Cli CliFacts CliList Listing Compose Graft ComposeList ComposeEdit
  PropListing PropCompose PropGraft PropString PropDelete.
Import ListNotations.
Local Close Scope string_scope.
Open Scope N_scope.

(** ** Tables after one row was deleted *)
Lemma one_delete b io d G A io' j s a z r : db_open io DbPlain = DOk d -> stores b d G A -> A j = Some s -> G j <> GAny -> sh_rows s = a ++ r :: z ->
  program b DbPlain io [ADelete j (len a)] io' -> exists d', db_open io' DbPlain = DOk d' /\ db_header d' = db_header d /\ bytes_ok io' /\
  (forall kd l rows, chain A (db_header d) kd l -> ~ In j l -> table_in b DbPlain (db_header d) io kd (DOk rows) ->
     exists mid rows', Forall2 same_values mid rows /\ Forall2 same_values mid rows' /\ table_in b DbPlain (db_header d) io' kd (DOk rows')) /\
  (forall kd l rows, chain A (db_header d) kd l -> In j l -> table_in b DbPlain (db_header d) io kd (DOk rows) ->
     exists R1 R2 rows', Forall2 same_values (R1 ++ r :: R2) rows /\ Forall2 same_values (R1 ++ R2) rows' /\ table_in b DbPlain (db_header d) io' kd (DOk rows')).
Proof.
  intros HO HST EA EG ER HPR. pose proof (stores_bytes b io DbPlain d G A HO HST) as HB.
  assert (acts_ok b (db_header d) G (fun _ => []) A [ADelete j (len a)]) as HAO by (cbn [acts_ok act_ok]; split; [split; [now exists s|easy]|exact I]).
  destruct (program_stores b DbPlain io _ io' d G (fun _ => []) A HO HST HAO HPR) as (d' & O' & H' & ST'). cbn [acts_work fold_left act_work] in ST'. rewrite EA in ST'.
  set (A' := put A j (take_out (len a) s)) in *.
  assert (sh_rows (take_out (len a) s) = a ++ z) as ET by (cbn [take_out sh_rows]; rewrite ER; apply without_split).
  assert (forall kd l rows, chain A (db_header d) kd l -> table_in b DbPlain (db_header d) io kd (DOk rows) -> Forall2 same_values (flat_map (shelf_rows A) l) rows) as HT.
  { intros kd l rows (i & tb & FT & HP) T. pose proof (iter_rows_is b io DbPlain kd d _ HB (open_fresh b io DbPlain d HO) T) as E. destruct (path_linked b d G A _ _ _ HST HP) as (pl & LK & _ & F).
    rewrite (iter_rows_linked b kd d i tb pl FT LK) in E. unfold rows_as in E. destruct (forallb (is_variant kd) (rows_of pl)); [|easy]. injection E as <-. exact F. }
  assert (forall kd l rows, chain A (db_header d) kd l -> table_in b DbPlain (db_header d) io kd (DOk rows) -> forallb (is_variant kd) (flat_map (shelf_rows A) l) = true) as HV.
  { intros kd l rows C T. pose proof (HT kd l rows C T) as F. pose proof (iter_rows_is b io DbPlain kd d _ HB (open_fresh b io DbPlain d HO) T) as E. apply iter_rows_iff in E as (i & tb & pl & _ & _ & _ & V).
    clear -F V. induction F as [|x x' m m' E _ IH]; [easy|]. cbn [forallb] in *. apply andb_prop in V as [V1 V2]. rewrite (same_variant kd x x' E) in V1. now rewrite V1, IH. }
  assert (forall kd l, chain A (db_header d) kd l -> chain A' (db_header d) kd l) as HC by (intros kd l (i & tb & FT & HP); exists i, tb; split; [exact FT|exact (path_other A (tb_last tb) j s (take_out (len a) s) EA eq_refl _ _ HP)]).
  exists d'. split; [exact O'|]. split; [exact H'|]. split; [exact (stores_bytes b io' DbPlain d' G A' O' ST')|]. split.
  - intros kd l rows C NI T. exists (flat_map (shelf_rows A) l). assert (on_shelves A' (db_header d') kd (flat_map (shelf_rows A) l)) as SH.
    { rewrite H'. exists l. split; [now apply HC|]. split; [unfold A'; now rewrite put_rows|]. exact (HV _ _ _ C T). }
    destruct (on_table b io' DbPlain d' G A' kd _ O' ST' SH) as (rows' & T' & F'). exists rows'. split; [now apply (HT kd)|]. split; [exact F'|]. now rewrite <- H'.
  - intros kd l rows C II T. apply in_split in II as (l1 & l2 & ->).
    assert (~ In j l1 /\ ~ In j l2) as [N1 N2] by (destruct C as (i & tb & FT & HP); exact (path_split _ _ _ _ _ _ HP)).
    assert (flat_map (shelf_rows A) (l1 ++ j :: l2) = (flat_map (shelf_rows A) l1 ++ a) ++ r :: (z ++ flat_map (shelf_rows A) l2)) as F1.
    { rewrite flat_map_app. cbn [flat_map]. unfold shelf_rows at 2. rewrite EA, ER, <- !app_assoc. reflexivity. }
    assert (flat_map (shelf_rows A') (l1 ++ j :: l2) = (flat_map (shelf_rows A) l1 ++ a) ++ (z ++ flat_map (shelf_rows A) l2)) as F2.
    { unfold A'. rewrite flat_map_app. cbn [flat_map]. rewrite !put_rows by easy. unfold shelf_rows at 2. unfold put. rewrite N.eqb_refl, ET, <- !app_assoc. reflexivity. }
    pose proof (HV _ _ _ C T) as V. pose proof (HT _ _ _ C T) as F0. rewrite F1 in V, F0.
    assert (on_shelves A' (db_header d') kd (flat_map (shelf_rows A') (l1 ++ j :: l2))) as SH.
    { rewrite H'. exists (l1 ++ j :: l2). split; [now apply HC|]. split; [easy|]. rewrite F2. rewrite forallb_app in *. cbn [forallb] in V. apply andb_prop in V as [V1 V2]. apply andb_prop in V2 as [_ V2]. now rewrite V1, V2. }
    destruct (on_table b io' DbPlain d' G A' kd _ O' ST' SH) as (rows' & T' & F'). rewrite F2 in F'. eexists _, _, rows'. split; [exact F0|]. split; [exact F'|]. now rewrite <- H'.
Qed.
Lemma same_less {X} (f : row -> option X) R1 r R2 rows rows' m : (forall r r', same_values r r' -> f r' = f r) -> Forall2 same_values (R1 ++ r :: R2) rows -> Forall2 same_values (R1 ++ R2) rows' ->
  Forall2 (fun r x => f r = Some x) rows m -> exists m1 x m2, m = m1 ++ x :: m2 /\ f r = Some x /\ Forall2 (fun r x => f r = Some x) rows' (m1 ++ m2).
Proof.
  intros HS F F' H. apply (same_rows_back f HS _ _ _ F) in H. apply Forall2_app_inv_l in H as (m1 & m2' & F1 & F2 & ->). inversion F2 as [|? x ? m2 EX F3]; subst. exists m1, x, m2. split; [easy|]. split; [easy|].
  apply (same_rows f HS _ _ _ F'). now apply Forall2_app.
Qed.

(** ** The listing without a node and what is below it *)
(** Leaves out the nodes with id [i] and those behind them on deeper levels; [h] is the level of the node below which we are. *)
Fixpoint cut (i : N) (h : option nat) (v : list (nat * node)) : list (nat * node) :=
  match v with
  | [] => []
  | (k, n) :: v => if match h with Some j => Nat.ltb j k | None => false end then cut i h v else if nd_id n =? i then cut i (Some k) v else (k, n) :: cut i None v
  end.
Lemma cut_app i level b : (match b with [] => True | y :: _ => fst y = level end) -> forall a h, Forall (fun y => (level <= fst y)%nat) a -> (forall j, h = Some j -> (level <= j)%nat) ->
  cut i h (a ++ b) = cut i h a ++ cut i None b.
Proof.
  intros HB. induction a as [|[k n] a IH]; intros h HA HH; cbn [List.app cut].
  - destruct b as [|[k n] b]; [easy|]. cbn [fst] in HB. subst k. cbn [cut]. destruct h as [j|]; [|easy]. specialize (HH j eq_refl). destruct (Nat.ltb_spec j level); [lia|easy].
  - inversion HA as [|? ? H1 H2]; subst. cbn [fst] in H1. destruct (match h with Some j => Nat.ltb j k | None => false end); [now apply IH|]. destruct (nd_id n =? i); [|cbn [List.app]; f_equal]; apply IH; try easy. intros j E. now injection E as <-.
Qed.
Lemma cut_below i k v : Forall (fun y => (k < fst y)%nat) v -> cut i (Some k) v = [].
Proof. induction 1 as [|[k' n] v H _ IH]; [easy|]. cbn [cut fst] in *. destruct (Nat.ltb_spec k k'); [exact IH|lia]. Qed.
Lemma visit_ge ns depth : forall id level v, visit depth ns id level = Some v -> Forall (fun y => (level <= fst y)%nat) v.
Proof.
  induction depth as [|depth IH]; intros id level v H; [easy|]. cbn [visit] in H. revert v H. induction (kids ns id) as [|n l IHl]; intros v H; cbn [opt_flat] in H; [injection H as <-; constructor|].
  destruct (visit depth ns (nd_id n) (S level)) as [u|] eqn:V; [|easy]. cbn [option_map] in H. destruct (opt_flat _ l) as [w|]; [|easy]. injection H as <-. cbn [List.app]. constructor; [cbn; lia|]. apply Forall_app. split; [|now apply IHl].
  eapply Forall_impl; [|exact (IH _ _ _ V)]. cbv beta. intros. lia.
Qed.
Lemma visit_cut ns1 nd ns2 : Forall (fun m => nd_id m <> nd_id nd) (ns1 ++ ns2) ->
  forall depth id level v, visit depth (ns1 ++ nd :: ns2) id level = Some v -> visit depth (ns1 ++ ns2) id level = Some (cut (nd_id nd) None v).
Proof.
  intros HI. induction depth as [|depth IH]; intros id level v H; [easy|]. cbn [visit] in *. rewrite kids_insert in H. rewrite kids_app.
  set (f := fun n : node => option_map (cons (level, n)) (visit depth (ns1 ++ nd :: ns2) (nd_id n) (S level))) in *. set (g := fun n : node => option_map (cons (level, n)) (visit depth (ns1 ++ ns2) (nd_id n) (S level))).
  assert (forall l u, opt_flat f l = Some u -> match u with [] => True | y :: _ => fst y = level end) as HHD.
  { intros [|n l] u E; cbn [opt_flat] in E; [now injection E as <-|]. unfold f at 1 in E. destruct (visit depth (ns1 ++ nd :: ns2) (nd_id n) (S level)); [|easy]. cbn [option_map] in E. destruct (opt_flat f l); [|easy]. now injection E as <-. }
  assert (forall n u, f n = Some u -> Forall (fun y => (level <= fst y)%nat) u) as HGE.
  { intros n u E. unfold f in E. destruct (visit depth (ns1 ++ nd :: ns2) (nd_id n) (S level)) as [w|] eqn:V; [|easy]. injection E as <-. constructor; [cbn; lia|]. eapply Forall_impl; [|exact (visit_ge _ _ _ _ _ V)]. cbv beta. intros. lia. }
  assert (forall l m u, Forall (fun n => nd_id n <> nd_id nd) l -> (forall w, opt_flat f m = Some w -> opt_flat g (kids ns2 id) = Some (cut (nd_id nd) None w)) -> opt_flat f (l ++ m) = Some u ->
    opt_flat g (l ++ kids ns2 id) = Some (cut (nd_id nd) None u)) as HL.
  { intros l m u HF HM. revert u. induction HF as [|n l H1 _ IHl]; intros u E; [now apply HM|]. cbn [List.app opt_flat] in *. destruct (f n) as [x|] eqn:EN; [|easy]. destruct (opt_flat f (l ++ m)) as [y|] eqn:EY; [|easy]. injection E as <-.
    rewrite (IHl y eq_refl). pose proof (HGE n x EN) as GE. unfold f in EN. unfold g at 1. destruct (visit depth (ns1 ++ nd :: ns2) (nd_id n) (S level)) as [w|] eqn:V; [|easy]. injection EN as <-. rewrite (IH _ _ _ V). cbn [option_map].
    rewrite (cut_app _ level y (HHD _ _ EY) _ None GE) by easy. cbn [cut]. destruct (N.eqb_spec (nd_id n) (nd_id nd)); [easy|reflexivity]. }
  assert (forall l, incl l (ns1 ++ ns2) -> Forall (fun m => nd_id m <> nd_id nd) (kids l id)) as HK.
  { intros l IN. apply Forall_forall. intros m M. unfold kids in M. apply filter_In in M as [M _]. rewrite Forall_forall in HI. now apply HI, IN. }
  assert (forall w, opt_flat f (kids ns2 id) = Some w -> opt_flat g (kids ns2 id) = Some (cut (nd_id nd) None w)) as H2.
  { intros w E. assert (forall l u, Forall (fun n => nd_id n <> nd_id nd) l -> opt_flat f l = Some u -> opt_flat g l = Some (cut (nd_id nd) None u)) as HL'.
    { intros l u HF. revert u. induction HF as [|n l N1 _ IHl]; intros u EU; [injection EU as <-; reflexivity|]. cbn [opt_flat] in *. destruct (f n) as [x|] eqn:EN; [|easy]. destruct (opt_flat f l) as [y|] eqn:EY; [|easy]. injection EU as <-.
      rewrite (IHl y eq_refl). pose proof (HGE n x EN) as GE. unfold f in EN. unfold g at 1. destruct (visit depth (ns1 ++ nd :: ns2) (nd_id n) (S level)) as [w'|] eqn:V; [|easy]. injection EN as <-. rewrite (IH _ _ _ V). cbn [option_map].
      rewrite (cut_app _ level y (HHD _ _ EY) _ None GE) by easy. cbn [cut]. destruct (N.eqb_spec (nd_id n) (nd_id nd)); [easy|reflexivity]. }
    apply HL'; [|exact E]. apply HK. intros m M. apply in_or_app. now right. }
  apply (HL (kids ns1 id) ((if nd_parent nd =? id then [nd] else []) ++ kids ns2 id)); [apply HK; intros m M; apply in_or_app; now left| |exact H].
  intros w E. destruct (nd_parent nd =? id); [|now apply H2]. cbn [List.app opt_flat] in E. destruct (f nd) as [x|] eqn:EN; [|easy]. destruct (opt_flat f (kids ns2 id)) as [y|] eqn:EY; [|easy]. injection E as <-. rewrite (H2 y eq_refl). f_equal.
  rewrite (cut_app _ level y (HHD _ _ EY) _ None (HGE nd x EN)) by easy. unfold f in EN. destruct (visit depth (ns1 ++ nd :: ns2) (nd_id nd) (S level)) as [w'|] eqn:V; [|easy]. injection EN as <-. cbn [cut]. rewrite N.eqb_refl, cut_below; [easy|].
  eapply Forall_impl; [|exact (visit_ge _ _ _ _ _ V)]. cbv beta. intros. lia.
Qed.
(** In plain words: a node that is there only once is left out together with the nodes directly behind it that are on deeper levels. *)
Lemma cut_none i v : Forall (fun y => nd_id (snd y) <> i) v -> cut i None v = v.
Proof. induction 1 as [|[k n] v H _ IH]; [easy|]. cbn [cut snd] in *. destruct (N.eqb_spec (nd_id n) i); [easy|]. now rewrite IH. Qed.
Lemma cut_hidden i k v : Forall (fun y => nd_id (snd y) <> i) v -> exists sub v2, v = sub ++ v2 /\ cut i (Some k) v = v2 /\ Forall (fun y => (k < fst y)%nat) sub /\ (match v2 with [] => True | y :: _ => (fst y <= k)%nat end).
Proof.
  induction 1 as [|[k' n] v H HF (sub & v2 & -> & E & F & HV)]; [exists [], []; now repeat split|]. cbn [cut snd] in *. destruct (Nat.ltb_spec k k').
  - exists ((k', n) :: sub), v2. split; [easy|]. split; [exact E|]. split; [now constructor|exact HV].
  - exists [], ((k', n) :: sub ++ v2). split; [easy|]. split; [|split; [constructor|exact H0]]. destruct (N.eqb_spec (nd_id n) i); [easy|]. now rewrite cut_none.
Qed.
Lemma cut_parts nd v : NoDup (map (fun y => nd_id (snd y)) v) -> (forall y, In y v -> nd_id (snd y) = nd_id nd -> snd y = nd) ->
  (~ In nd (map snd v) /\ cut (nd_id nd) None v = v) \/
  exists v1 k sub v2, v = v1 ++ (k, nd) :: sub ++ v2 /\ cut (nd_id nd) None v = v1 ++ v2 /\ Forall (fun y => (k < fst y)%nat) sub /\ (match v2 with [] => True | y :: _ => (fst y <= k)%nat end).
Proof.
  intros D HU. induction v as [|[k n] v IH]; [left; now split|]. cbn [map snd] in D. inversion D as [|? ? NI D']; subst. cbn [cut]. destruct (N.eqb_spec (nd_id n) (nd_id nd)) as [E|NE].
  - right. assert (n = nd) as -> by (apply (HU (k, n)); [now left|exact E]). destruct (cut_hidden (nd_id nd) k v) as (sub & v2 & -> & EC & F & HV).
    { apply Forall_forall. intros y I EY. apply NI. rewrite <- EY. apply (in_map (fun y => nd_id (snd y))). exact I. }
    exists [], k, sub, v2. now repeat split.
  - destruct (IH D') as [[N1 N2]|(v1 & k1 & sub & v2 & -> & EC & F & HV)]; [intros y I; apply HU; now right| |].
    + left. rewrite N2. split; [|easy]. intros [EX|I]; [|now apply N1]. cbn [snd] in EX. now subst n.
    + right. exists ((k, n) :: v1), k1, sub, v2. rewrite EC. now repeat split.
Qed.

(** ** The tree without a node and what is below it *)
Fixpoint pruned (i : N) (t : pnode) : list pnode :=
  match t with
  | PFolder j name ch => if j =? i then [] else [PFolder j name (flat_map (pruned i) ch)]
  | PPlaylist j name => if j =? i then [] else [PPlaylist j name]
  end.
Lemma child_pruned ns1 nd ns2 : Forall (fun m => nd_id m <> nd_id nd) (ns1 ++ ns2) ->
  forall d id ts, child_nodes d (by_parent (ns1 ++ nd :: ns2)) id = Some (Done ts) -> child_nodes d (by_parent (ns1 ++ ns2)) id = Some (Done (flat_map (pruned (nd_id nd)) ts)).
Proof.
  intros HI. induction d as [|d IH]; intros id ts H; [easy|]. cbn [child_nodes] in *. rewrite by_parent_kids in *. rewrite kids_insert in H. rewrite kids_app. apply collect_done_iff in H. apply collect_done_iff.
  apply Forall2_app_inv_l in H as (t1 & t2' & F1 & F2 & ->). apply Forall2_app_inv_l in F2 as (t0 & t2 & F0 & F2 & ->). rewrite !flat_map_app.
  match goal with |- Forall2 ?P _ _ => set (Q := P) end.
  assert (forall l us, Forall (fun n => nd_id n <> nd_id nd) l -> Forall2 (fun y t => match dstr_into_string (nd_name y) with
     | inl s => if nd_folder y then match child_nodes d (by_parent (ns1 ++ nd :: ns2)) (nd_id y) with Some (Done ch) => Some (Done (PFolder (nd_id y) s ch)) | Some (Fail e) => Some (Fail e) | Some Crash => Some Crash | None => None end
                else Some (Done (PPlaylist (nd_id y) s))
     | inr _ => Some (Fail PEncoding) end = Some (Done t)) l us -> Forall2 Q l (flat_map (pruned (nd_id nd)) us)) as K.
  { intros l us HF F. induction F as [|y t l us E _ IHl]; [constructor|]. inversion HF as [|? ? NE HF']; subst. cbn [flat_map]. specialize (IHl HF'). destruct (dstr_into_string (nd_name y)) as [sy|] eqn:ES; [|easy]. destruct (nd_folder y) eqn:EF.
    - destruct (child_nodes d (by_parent (ns1 ++ nd :: ns2)) (nd_id y)) as [[ch|?|]|] eqn:EC; try easy. injection E as <-. cbn [pruned]. destruct (N.eqb_spec (nd_id y) (nd_id nd)); [easy|]. cbn [List.app]. constructor; [|exact IHl].
      unfold Q. now rewrite ES, EF, (IH _ _ EC).
    - injection E as <-. cbn [pruned]. destruct (N.eqb_spec (nd_id y) (nd_id nd)); [easy|]. cbn [List.app]. constructor; [|exact IHl]. unfold Q. now rewrite ES, EF. }
  assert (forall l, incl l (ns1 ++ ns2) -> Forall (fun m => nd_id m <> nd_id nd) (kids l id)) as HK.
  { intros l IN. apply Forall_forall. intros m M. unfold kids in M. apply filter_In in M as [M _]. rewrite Forall_forall in HI. now apply HI, IN. }
  apply Forall2_app; [apply K; [apply HK; intros m M; apply in_or_app; now left|exact F1]|].
  replace (flat_map (pruned (nd_id nd)) t0) with (@nil pnode); [cbn [List.app]; apply K; [apply HK; intros m M; apply in_or_app; now right|exact F2]|].
  destruct (nd_parent nd =? id); [|now inversion F0]. inversion F0 as [|? t ? ? E F0']; subst. inversion F0'; subst. cbn [flat_map]. rewrite app_nil_r. destruct (dstr_into_string (nd_name nd)) as [sy|]; [|easy]. destruct (nd_folder nd).
  - destruct (child_nodes d (by_parent (ns1 ++ nd :: ns2)) (nd_id nd)) as [[ch|?|]|]; try easy. injection E as <-. cbn [pruned]. now rewrite N.eqb_refl.
  - injection E as <-. cbn [pruned]. now rewrite N.eqb_refl.
Qed.
(** Where [i] is no folder, just the playlists with this id go. *)
Fixpoint no_folder (i : N) (t : pnode) : Prop :=
  match t with
  | PFolder j _ ch => j <> i /\ fold_right (fun c P => no_folder i c /\ P) True ch
  | PPlaylist _ _ => True
  end.
Lemma no_folder_all i ch : fold_right (fun c P => no_folder i c /\ P) True ch <-> Forall (no_folder i) ch.
Proof. induction ch as [|c ch IH]; cbn [fold_right]; [easy|]. rewrite IH. split; [intros [? ?]; now constructor|intro H; now inversion H]. Qed.
Lemma filter_flat {X Y} (f : X -> list Y) p l : filter p (flat_map f l) = flat_map (fun x => filter p (f x)) l.
Proof. induction l as [|x l IH]; [easy|]. cbn [flat_map]. now rewrite filter_app, IH. Qed.
Lemma pruned_playlists i : forall t above, no_folder i t -> flat_map (playlists above) (pruned i t) = filter (fun y => negb (snd (fst y) =? i)) (playlists above t).
Proof.
  fix IH 1. intros [j name ch|j name] above H; cbn [pruned playlists].
  - destruct H as [NE H]. destruct (N.eqb_spec j i); [easy|]. cbn [flat_map playlists]. rewrite app_nil_r. revert H. generalize (above ++ [name]). intros ab H.
    induction ch as [|c ch IHch]; [easy|]. destruct H as [H1 H2]. cbn [flat_map]. rewrite flat_map_app, filter_app, IH by exact H1. now rewrite IHch.
  - cbn [filter fst snd]. destruct (j =? i); [easy|]. reflexivity.
Qed.
Lemma child_no_folder ns i : Forall (fun n => nd_id n = i -> nd_folder n = false) ns -> forall d id ts, child_nodes d (by_parent ns) id = Some (Done ts) -> Forall (no_folder i) ts.
Proof.
  intro HN. induction d as [|d IH]; intros id ts H; [easy|]. cbn [child_nodes] in H. rewrite by_parent_kids in H. apply collect_done_iff in H.
  assert (Forall (fun n => nd_id n = i -> nd_folder n = false) (kids ns id)) as HK by (apply Forall_forall; intros m M; unfold kids in M; apply filter_In in M as [M _]; rewrite Forall_forall in HN; now apply HN).
  induction H as [|y t l us E _ IHl]; [constructor|]. inversion HK as [|? ? H1 H2]; subst. constructor; [|now apply IHl]. destruct (dstr_into_string (nd_name y)); [|easy]. destruct (nd_folder y).
  - destruct (child_nodes d (by_parent ns) (nd_id y)) as [[ch|?|]|] eqn:EC; try easy. injection E as <-. cbn [no_folder]. split; [intro EI; now apply H1 in EI|]. apply no_folder_all. exact (IH _ _ EC).
  - now injection E as <-.
Qed.

(** ** A track that is gone *)
Lemma listed_drop canon l1 l2 t p ps ls : ~ In t (map fst (l1 ++ l2)) -> listed canon (l1 ++ (t, p) :: l2) ps ls ->
  exists ls', listed canon (l1 ++ l2) ps ls' /\ ((forall i, ~ In (i, t) ps) -> ls' = ls) /\ woven (fun l => l = display (join canon (unrooted (utf8_enc p)))) ls' ls.
Proof.
  intros NI H. assert (last_of (fun x => fst x = t) (l1 ++ (t, p) :: l2) (t, p)) as LT.
  { apply last_of_only; [easy| |easy]. apply Forall_forall. intros x I E. apply NI. rewrite <- E. now apply in_map. }
  induction H as [|i u q ps ls L _ (ls' & IH1 & IH2 & IH3)|i u ps ls L _ (ls' & IH1 & IH2 & IH3)].
  - exists []. repeat constructor.
  - destruct (N.eq_dec u t) as [->|NE].
    + pose proof (last_of_fun _ _ _ _ L LT) as E. injection E as ->. exists ls'. split; [now apply listed_missing|]. split; [|now apply woven_new]. intro N. destruct (N i). now left.
    + eexists. split; [apply listed_found; [|exact IH1]; apply last_of_middle in L; [exact L|cbn [fst]; congruence]|]. split; [|apply woven_old; exact IH3]. intro N. rewrite IH2; [easy|]. intros j J. apply (N j). now right.
  - exists ls'. split; [apply listed_missing; [|exact IH1]; rewrite map_app in *; intro I; apply L; apply in_app_or in I; apply in_or_app; cbn [map In]; tauto|]. split; [|exact IH3]. intro N. apply IH2. intros j J. apply (N j). now right.
Qed.
