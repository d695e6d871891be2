(** * From a row that is changed to the listing and the export of the playlists *)
From Coq Require Import NArith ZArith List Bool Lia Sorted Relations String.
From Coq Require Import ZifyBool ZifyNat ZifyN.
From Verif Require Import Base BaseFacts Segs Utf Str StrFacts StrGood Schema SchemaFacts Oa OaFacts OaSpec Rows RowFacts RowSpec Page BitFacts PageFacts PageRw PageSpec Alloc AllocFacts AllocSpec
  Db DbFacts DbFlush DbFresh RowShape Reread Progress Insert Session Revise Dump DumpFacts Setting Device DeviceFacts DeviceTree Cli CliFacts CliList Listing Compose Graft ComposeList
  PropListing PropCompose PropGraft PropString.
Import ListNotations.
Local Close Scope string_scope.
Open Scope N_scope.

(** ** Tables after one row was changed *)
Lemma one_assign b io d G A io' j s a z r f : db_open io DbPlain = DOk d -> stores b d G A -> A j = Some s -> G j <> GAny -> sh_rows s = a ++ r :: z -> r <> RUnknown -> modest b f r ->
  program b DbPlain io [AAssign j (only (len a) f)] io' -> exists d', db_open io' DbPlain = DOk d' /\ db_header d' = db_header d /\ bytes_ok io' /\
  (forall kd l rows, chain A (db_header d) kd l -> ~ In j l -> table_in b DbPlain (db_header d) io kd (DOk rows) ->
     exists mid rows', Forall2 same_values mid rows /\ Forall2 same_values mid rows' /\ table_in b DbPlain (db_header d) io' kd (DOk rows')) /\
  (forall kd l rows, chain A (db_header d) kd l -> In j l -> table_in b DbPlain (db_header d) io kd (DOk rows) ->
     exists R1 R2 rows', Forall2 same_values (R1 ++ r :: R2) rows /\ Forall2 same_values (R1 ++ changed f r :: R2) rows' /\ table_in b DbPlain (db_header d) io' kd (DOk rows')).
Proof.
  intros HO HST EA EG ER NR HM HPR. destruct r as [kr vs oc|]; [clear NR|easy].
  pose proof (stores_bytes b io DbPlain d G A HO HST) as HB. pose proof (modest_one b d G A j s a kr vs oc z f HST EA EG ER HM) as HMR.
  assert (acts_ok b (db_header d) G (fun _ => []) A [AAssign j (only (len a) f)]) as HAO by (cbn [acts_ok act_ok]; split; [now exists s|exact I]).
  destruct (program_stores b DbPlain io _ io' d G (fun _ => []) A HO HST HAO HPR) as (d' & O' & H' & ST'). cbn [acts_work fold_left act_work] in ST'. rewrite EA in ST'.
  set (A' := put A j (revise (only (len a) f) 0 s)) in *.
  assert (forall kd l rows, chain A (db_header d) kd l -> table_in b DbPlain (db_header d) io kd (DOk rows) -> Forall2 same_values (flat_map (shelf_rows A) l) rows) as HT.
  { intros kd l rows (i & tb & FT & HP) T. pose proof (iter_rows_is b io DbPlain kd d _ HB (open_fresh b io DbPlain d HO) T) as E. destruct (path_linked b d G A _ _ _ HST HP) as (pl & LK & _ & F).
    rewrite (iter_rows_linked b kd d i tb pl FT LK) in E. unfold rows_as in E. destruct (forallb (is_variant kd) (rows_of pl)); [|easy]. injection E as <-. exact F. }
  assert (forall kd l rows, chain A (db_header d) kd l -> table_in b DbPlain (db_header d) io kd (DOk rows) -> forallb (is_variant kd) (flat_map (shelf_rows A) l) = true) as HV.
  { intros kd l rows C T. pose proof (HT kd l rows C T) as F. pose proof (iter_rows_is b io DbPlain kd d _ HB (open_fresh b io DbPlain d HO) T) as E. apply iter_rows_iff in E as (i & tb & pl & _ & _ & _ & V).
    clear -F V. induction F as [|r r' m m' E _ IH]; [easy|]. cbn [forallb] in *. apply andb_prop in V as [V1 V2]. rewrite (same_variant kd r r' E) in V1. now rewrite V1, IH. }
  assert (forall kd l, chain A (db_header d) kd l -> chain A' (db_header d) kd l) as HC by (intros kd l (i & tb & FT & HP); exists i, tb; split; [exact FT|now apply path_put]).
  exists d'. split; [exact O'|]. split; [exact H'|]. split; [exact (stores_bytes b io' DbPlain d' G A' O' ST')|]. split.
  - intros kd l rows C NI T. exists (flat_map (shelf_rows A) l). assert (on_shelves A' (db_header d') kd (flat_map (shelf_rows A) l)) as SH.
    { rewrite H'. exists l. split; [now apply HC|]. split; [unfold A'; now rewrite put_rows|]. exact (HV _ _ _ C T). }
    destruct (on_table b io' DbPlain d' G A' kd _ O' ST' SH) as (rows' & T' & F'). exists rows'. split; [now apply (HT kd)|]. split; [exact F'|]. now rewrite <- H'.
  - intros kd l rows C II T. apply in_split in II as (l1 & l2 & ->).
    assert (~ In j l1 /\ ~ In j l2) as [N1 N2] by (destruct C as (i & tb & FT & HP); exact (path_split _ _ _ _ _ _ HP)).
    assert (flat_map (shelf_rows A) (l1 ++ j :: l2) = (flat_map (shelf_rows A) l1 ++ a) ++ RRow kr vs oc :: (z ++ flat_map (shelf_rows A) l2)) as F1.
    { rewrite flat_map_app. cbn [flat_map]. unfold shelf_rows at 2. rewrite EA, ER, <- !app_assoc. reflexivity. }
    assert (flat_map (shelf_rows A') (l1 ++ j :: l2) = (flat_map (shelf_rows A) l1 ++ a) ++ changed f (RRow kr vs oc) :: (z ++ flat_map (shelf_rows A) l2)) as F2.
    { unfold A'. rewrite flat_map_app. cbn [flat_map]. rewrite !put_rows by easy. unfold shelf_rows at 2. unfold put. rewrite N.eqb_refl. cbn [revise sh_rows]. rewrite ER, revised_one, <- !app_assoc. reflexivity. }
    pose proof (HV _ _ _ C T) as V. pose proof (HT _ _ _ C T) as F0. rewrite F1 in V, F0.
    assert (on_shelves A' (db_header d') kd (flat_map (shelf_rows A') (l1 ++ j :: l2))) as SH.
    { rewrite H'. exists (l1 ++ j :: l2). split; [now apply HC|]. split; [easy|]. rewrite F2. rewrite forallb_app in *. exact V. }
    destruct (on_table b io' DbPlain d' G A' kd _ O' ST' SH) as (rows' & T' & F'). rewrite F2 in F'. eexists _, _, rows'. split; [exact F0|]. split; [exact F'|]. now rewrite <- H'.
Qed.
Lemma same_swap {X} (f : row -> option X) R1 r r' R2 rows rows' m x' : (forall r r', same_values r r' -> f r' = f r) -> Forall2 same_values (R1 ++ r :: R2) rows -> Forall2 same_values (R1 ++ r' :: R2) rows' -> f r' = Some x' ->
  Forall2 (fun r x => f r = Some x) rows m -> exists m1 x m2, m = m1 ++ x :: m2 /\ f r = Some x /\ Forall2 (fun r x => f r = Some x) rows' (m1 ++ x' :: m2).
Proof.
  intros HS F F' E H. apply (same_rows_back f HS _ _ _ F) in H. apply Forall2_app_inv_l in H as (m1 & m2' & F1 & F2 & ->). inversion F2 as [|? x ? m2 EX F3]; subst. exists m1, x, m2. split; [easy|]. split; [easy|].
  apply (same_rows f HS _ _ _ F'). apply Forall2_app; [easy|]. now constructor.
Qed.

(** ** Nodes with other names *)
Section Rename.
  Context (h : node -> node) (ns : list node) (h_id : forall n, In n ns -> nd_id (h n) = nd_id n) (h_parent : forall n, In n ns -> nd_parent (h n) = nd_parent n).
  Lemma kids_map id : kids (map h ns) id = map h (kids ns id).
  Proof.
    clear h_id. unfold kids. revert h_parent. induction ns as [|n l IH]; intro HP; [easy|]. cbn [map filter]. rewrite (HP n (or_introl eq_refl)), IH by (intros m M; apply HP; now right).
    now destruct (nd_parent n =? id).
  Qed.
  Lemma visit_map : forall depth id level, visit depth (map h ns) id level = option_map (map (fun y => (fst y, h (snd y)))) (visit depth ns id level).
  Proof.
    induction depth as [|depth IH]; intros id level; [easy|]. cbn [visit]. rewrite kids_map. assert (incl (kids ns id) ns) as HI by (intros m M; unfold kids in M; now apply filter_In in M).
    revert HI. induction (kids ns id) as [|n l IHl]; intro HI; [easy|]. cbn [map opt_flat]. rewrite h_id by (apply HI; now left). rewrite IH, IHl by (intros m M; apply HI; now right).
    destruct (visit depth ns (nd_id n) (S level)) as [u|]; [|easy]. cbn [option_map]. destruct (opt_flat _ l) as [w|]; [|easy]. cbn [option_map List.app map fst snd]. now rewrite map_app.
  Qed.
End Rename.

(** ** The tree of nodes with other names *)
Fixpoint renamed (id : N) (s : list N) (t : pnode) : pnode :=
  match t with
  | PFolder i n ch => PFolder i (if i =? id then s else n) (map (renamed id s) ch)
  | PPlaylist i n => PPlaylist i (if i =? id then s else n)
  end.
Lemma by_parent_kids ns id : (match mm_get (by_parent ns) id with Some l => l | None => [] end) = kids ns id.
Proof. exact (by_parent_get ns id). Qed.
Lemma child_renamed h ns id0 s' : (forall n, In n ns -> nd_id (h n) = nd_id n) -> (forall n, In n ns -> nd_parent (h n) = nd_parent n) -> (forall n, In n ns -> nd_folder (h n) = nd_folder n) ->
  (forall n, In n ns -> dstr_into_string (nd_name (h n)) = if nd_id n =? id0 then inl s' else dstr_into_string (nd_name n)) ->
  forall d id ts, child_nodes d (by_parent ns) id = Some (Done ts) -> child_nodes d (by_parent (map h ns)) id = Some (Done (map (renamed id0 s') ts)).
Proof.
  intros HI HP HF HN. induction d as [|d IH]; intros id ts H; [easy|]. cbn [child_nodes] in *. rewrite by_parent_kids in *. rewrite (kids_map h ns HP). assert (incl (kids ns id) ns) as HK by (intros m M; unfold kids in M; now apply filter_In in M).
  revert HK ts H. induction (kids ns id) as [|n l IHl]; intros HK ts H; [injection H as <-; reflexivity|]. cbn [map collect_map] in *. assert (In n ns) as IN by (apply HK; now left).
  rewrite (HN n IN), (HF n IN), (HI n IN). assert (incl l ns) as HK' by (intros m M; apply HK; now right).
  destruct (dstr_into_string (nd_name n)) as [sn|]; [|easy].
  destruct (nd_folder n).
  - destruct (child_nodes d (by_parent ns) (nd_id n)) as [[ch|e|]|] eqn:C; try easy. rewrite (IH _ _ C).
    match type of H with match ?c with _ => _ end = _ => destruct c as [[us|e|]|] eqn:CL; try easy end. injection H as <-. pose proof (IHl HK' us eq_refl) as EL. cbn [map renamed]. destruct (nd_id n =? id0); now rewrite EL.
  - match type of H with match ?c with _ => _ end = _ => destruct c as [[us|e|]|] eqn:CL; try easy end. injection H as <-. pose proof (IHl HK' us eq_refl) as EL. cbn [map renamed]. destruct (nd_id n =? id0); now rewrite EL.
Qed.

(** ** Another track for one entry *)
Lemma parted (x : N) (ps1 ps2 qs1 qs2 : list (N * N)) : Forall (fun y => fst y < x) ps1 -> Forall (fun y => x < fst y) ps2 -> Forall (fun y => fst y < x) qs1 -> Forall (fun y => x < fst y) qs2 -> ps1 ++ ps2 = qs1 ++ qs2 -> ps1 = qs1 /\ ps2 = qs2.
Proof.
  intros P1 P2 Q1 Q2 E. assert (forall l1 l2 : list (N * N), Forall (fun y => fst y < x) l1 -> Forall (fun y => x < fst y) l2 -> filter (fun y => fst y <? x) (l1 ++ l2) = l1) as H.
  { clear. intros l1 l2 F1 F2. induction F1 as [|y l1 H _ IH]; cbn [List.app filter].
    - induction F2 as [|y l2 H _ IH]; [easy|]. cbn [filter]. destruct (fst y <? x) eqn:E; [lia|exact IH].
    - destruct (fst y <? x) eqn:E; [|lia]. now rewrite IH. }
  assert (ps1 = qs1) as -> by (rewrite <- (H ps1 ps2 P1 P2), E; now apply H). split; [easy|]. now apply app_inv_head in E.
Qed.
Lemma content_swap canon es1 es2 x t t' id tr : Forall (fun e => ~ (pe_playlist e = id /\ pe_index e = x)) (es1 ++ es2) -> exists ps1 ps2 ls1 old new ls2,
  Forall (fun y => fst y < x) ps1 /\ Forall (fun y => x < fst y) ps2 /\ listed canon tr ps1 ls1 /\ listed canon tr [(x, t)] old /\ listed canon tr [(x, t')] new /\ listed canon tr ps2 ls2 /\
  content canon (entries_map (es1 ++ mk_pentry x t id :: es2)) (tracks_map tr) id = flat_map (fun l => l ++ [10]) (ls1 ++ old ++ ls2) /\
  content canon (entries_map (es1 ++ mk_pentry x t' id :: es2)) (tracks_map tr) id = flat_map (fun l => l ++ [10]) (ls1 ++ new ++ ls2).
Proof.
  intro HF. destruct (content_insert canon es1 es2 x t id tr HF) as (ps1 & ps2 & ls1 & old & ls2 & S & I & P1 & P2 & L1 & L0 & L2 & _ & C).
  destruct (content_insert canon es1 es2 x t' id tr HF) as (qs1 & qs2 & ms1 & new & ms2 & S' & I' & Q1 & Q2 & M1 & M0 & M2 & _ & C').
  destruct (parted x ps1 ps2 qs1 qs2 P1 P2 Q1 Q2) as [<- <-]; [apply sorted_ext; try easy; intros [i u]; now rewrite I, I'|].
  rewrite (listed_fun _ _ _ _ _ L1 M1) in *. rewrite (listed_fun _ _ _ _ _ L2 M2) in *. now exists ps1, ps2, ls1, old, new, ls2.
Qed.
(** ** Another path for one track *)
Lemma listed_swap canon l1 l2 t p p' ps ls : ~ In t (map fst (l1 ++ l2)) -> listed canon (l1 ++ (t, p) :: l2) ps ls ->
  exists ls', listed canon (l1 ++ (t, p') :: l2) ps ls' /\ ((forall i, ~ In (i, t) ps) -> ls' = ls) /\
    Forall2 (fun l l' => l' = l \/ l = display (join canon (unrooted (utf8_enc p))) /\ l' = display (join canon (unrooted (utf8_enc p')))) ls ls'.
Proof.
  intros NI H. assert (forall q, last_of (fun x => fst x = t) (l1 ++ (t, q) :: l2) (t, q)) as LT.
  { intro q. apply last_of_only; [easy| |easy]. apply Forall_forall. intros x I E. apply NI. rewrite <- E. now apply in_map. }
  induction H as [|i u q ps ls L _ (ls' & IH1 & IH2 & IH3)|i u ps ls L _ (ls' & IH1 & IH2 & IH3)].
  - exists []. repeat constructor.
  - destruct (N.eq_dec u t) as [->|NE].
    + pose proof (last_of_fun _ _ _ _ L (LT p)) as E. injection E as ->. eexists. split; [apply listed_found; [apply LT|exact IH1]|]. split; [|constructor; [now right|exact IH3]]. intro N. destruct (N i). now left.
    + eexists. split; [apply listed_found; [|exact IH1]; apply last_of_middle in L; [|cbn [fst]; congruence]; apply last_of_middle; [cbn [fst]; congruence|exact L]|]. split; [|constructor; [now left|exact IH3]]. intro N. rewrite IH2; [easy|]. intros j J. apply (N j). now right.
  - exists ls'. split; [apply listed_missing; [|exact IH1]; rewrite map_app in *; exact L|]. split; [|exact IH3]. intro N. apply IH2. intros j J. apply (N j). now right.
Qed.
