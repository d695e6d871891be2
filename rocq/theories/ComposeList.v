(** * From a row that is inserted to the listing of the playlists *)
From Coq Require Import NArith ZArith List Bool Lia Sorted Relations String.
From Coq Require Import ZifyBool ZifyNat ZifyN.
From Verif Require Import Base BaseFacts Segs Utf Str StrFacts StrGood Schema SchemaFacts Oa OaFacts OaSpec Rows RowFacts RowSpec Page BitFacts PageFacts PageRw PageSpec Alloc AllocFacts AllocSpec
  Db DbFacts DbFlush DbFresh RowShape Reread Progress Insert Session Dump DumpFacts Setting Device DeviceFacts DeviceTree Cli CliFacts CliList Listing Compose Graft PropListing PropCompose PropGraft.
Import ListNotations.
Local Close Scope string_scope.
Open Scope N_scope.

(** ** Tables after one row was inserted *)
Lemma same_artist r r' : same_values r r' -> artist_of_row r' = artist_of_row r.
Proof.
  destruct r as [k vs oc|], r' as [k' vs' oc'|]; try easy. intros (-> & -> & E). destruct oc as [c|], oc' as [c'|]; try easy. cbn [option_map] in E. injection E as E. cbn [artist_of_row]. now rewrite E.
Qed.
Lemma same_listed_track r r' : same_values r r' -> listed_track_of_row r' = listed_track_of_row r.
Proof.
  destruct r as [k vs oc|], r' as [k' vs' oc'|]; try easy. intros (-> & -> & E). destruct oc as [c|], oc' as [c'|]; try easy. cbn [option_map] in E. injection E as E. cbn [listed_track_of_row]. now rewrite E.
Qed.
Lemma one_session b io d G A io' i s n r kd0 : db_open io DbPlain = DOk d -> stores b d G A -> A i = Some s -> G i = GGrow -> sh_type s = PT kd0 -> op_fine b (PT kd0) (n, Some r) -> (n + 3) / 4 * 4 + 6 <= sh_free s ->
  session b DbPlain io [(i, [(n, Some r)])] io' -> exists d', db_open io' DbPlain = DOk d' /\ db_header d' = db_header d /\ bytes_ok io' /\
  (forall kd l rows, chain A (db_header d) kd l -> ~ In i l -> table_in b DbPlain (db_header d) io kd (DOk rows) ->
     exists mid rows', Forall2 same_values mid rows /\ Forall2 same_values mid rows' /\ table_in b DbPlain (db_header d) io' kd (DOk rows')) /\
  (forall kd l rows, chain A (db_header d) kd l -> In i l -> is_variant kd r = true -> table_in b DbPlain (db_header d) io kd (DOk rows) ->
     exists R1 R2 rows', flat_map (shelf_rows A) l = R1 ++ R2 /\ Forall2 same_values (R1 ++ R2) rows /\ Forall2 same_values (R1 ++ r :: R2) rows' /\ table_in b DbPlain (db_header d) io' kd (DOk rows')).
Proof.
  intros HO HST EA EG ETY HFI EF HSE.
  assert (allowed b G A [(i, [(n, Some r)])]) as HAL.
  { constructor; [|constructor]. exists s. split; [exact EA|]. right. split; [exact EG|]. rewrite ETY. constructor; [exact HFI|constructor]. }
  pose proof (stores_bytes b io DbPlain d G A HO HST) as HB.
  set (A' := work1 A (i, [(n, Some r)])).
  assert (forall kd l rows, chain A (db_header d) kd l -> table_in b DbPlain (db_header d) io kd (DOk rows) -> Forall2 same_values (flat_map (shelf_rows A) l) rows) as HT.
  { intros kd l rows (j & tb & FT & HP) T. pose proof (iter_rows_is b io DbPlain kd d _ HB (open_fresh b io DbPlain d HO) T) as E. destruct (path_linked b d G A _ _ _ HST HP) as (pl & LK & _ & F).
    rewrite (iter_rows_linked b kd d j tb pl FT LK) in E. unfold rows_as in E. destruct (forallb (is_variant kd) (rows_of pl)); [|easy]. injection E as <-. exact F. }
  assert (forall kd l rows, chain A (db_header d) kd l -> table_in b DbPlain (db_header d) io kd (DOk rows) -> forallb (is_variant kd) (flat_map (shelf_rows A) l) = true) as HV.
  { intros kd l rows C T. pose proof (HT kd l rows C T) as F. pose proof (iter_rows_is b io DbPlain kd d _ HB (open_fresh b io DbPlain d HO) T) as E. apply iter_rows_iff in E as (j & tb & pl & _ & _ & _ & V).
    clear -F V. induction F as [|r r' m m' E _ IH]; [easy|]. cbn [forallb] in *. apply andb_prop in V as [V1 V2]. rewrite (same_variant kd r r' E) in V1. now rewrite V1, IH. }
  assert (forall kd l, chain A (db_header d) kd l -> chain A' (db_header d) kd l) as HC.
  { intros kd l (j & tb & FT & HP). exists j, tb. split; [exact FT|]. exact (path_work [(i, [(n, Some r)])] A _ _ _ HP). }
  destruct (sessions_stores b DbPlain io [[(i, [(n, Some r)])]] io' (sessions_cons _ _ _ _ io' _ _ HSE (sessions_nil _ _ _)) d G A HO HST HAL) as (d' & O' & H' & ST'). change (work (List.concat [[(i, [(n, Some r)])]]) A) with A' in ST'.
  exists d'. split; [exact O'|]. split; [exact H'|]. split; [exact (stores_bytes b io' DbPlain d' G A' O' ST')|]. split.
  - intros kd l rows C NI T. exists (flat_map (shelf_rows A) l). assert (on_shelves A' (db_header d') kd (flat_map (shelf_rows A) l)) as SH.
    { rewrite H'. exists l. split; [now apply HC|]. split; [unfold A'; now rewrite rows_elsewhere|]. exact (HV _ _ _ C T). }
    destruct (on_table b io' DbPlain d' G A' kd _ O' ST' SH) as (rows' & T' & F'). exists rows'. split; [now apply (HT kd)|]. split; [exact F'|]. now rewrite <- H'.
  - intros kd l rows C II VR T. destruct C as (j & tb & FT & HP). destruct (one_row A l n r i s _ _ HP II EA EF) as (R1 & R2 & E0 & E1). fold A' in E1. assert (chain A (db_header d) kd l) as C by now exists j, tb.
    pose proof (HV _ _ _ C T) as V. rewrite E0, forallb_app in V. apply andb_prop in V as [V1 V2].
    assert (on_shelves A' (db_header d') kd (R1 ++ r :: R2)) as SH.
    { rewrite H'. exists l. split; [now apply HC|]. split; [easy|]. rewrite forallb_app, V1. cbn [forallb]. now rewrite VR, V2. }
    destruct (on_table b io' DbPlain d' G A' kd _ O' ST' SH) as (rows' & T' & F'). exists R1, R2, rows'. split; [easy|]. split; [rewrite <- E0; now apply (HT kd)|]. split; [exact F'|]. now rewrite <- H'.
Qed.
Lemma same_both {X} (f : row -> option X) mid rows rows' m : (forall r r', same_values r r' -> f r' = f r) -> Forall2 same_values mid rows -> Forall2 same_values mid rows' -> Forall2 (fun r x => f r = Some x) rows m -> Forall2 (fun r x => f r = Some x) rows' m.
Proof. intros HS F F' H. apply (same_rows f HS _ _ _ F'). exact (same_rows_back f HS _ _ _ F H). Qed.
Lemma same_more {X} (f : row -> option X) R1 r R2 rows rows' m x : (forall r r', same_values r r' -> f r' = f r) -> Forall2 same_values (R1 ++ R2) rows -> Forall2 same_values (R1 ++ r :: R2) rows' -> f r = Some x ->
  Forall2 (fun r x => f r = Some x) rows m -> exists m1 m2, m = m1 ++ m2 /\ Forall2 (fun r x => f r = Some x) (R1 ++ R2) (m1 ++ m2) /\ Forall2 (fun r x => f r = Some x) rows' (m1 ++ x :: m2).
Proof.
  intros HS F F' E H. apply (same_rows_back f HS _ _ _ F) in H. pose proof H as H0. apply Forall2_app_inv_l in H as (m1 & m2 & F1 & F2 & ->). exists m1, m2. split; [easy|]. split; [easy|].
  apply (same_rows f HS _ _ _ F'). apply Forall2_app; [easy|]. now constructor.
Qed.

(** ** One entry more *)
Lemma indices_insert es1 es2 x id ps : Forall (fun e => ~ (pe_playlist e = id /\ pe_index e = x)) (es1 ++ es2) -> StronglySorted (fun y z => fst y < fst z) ps ->
  (forall i u, In (i, u) ps <-> last_of (fun e => pe_playlist e = id /\ pe_index e = i) (es1 ++ es2) (mk_pentry i u id)) ->
  exists ps1 ps2, ps = ps1 ++ ps2 /\ Forall (fun y => fst y < x) ps1 /\ Forall (fun y => x < fst y) ps2 /\ forall t, StronglySorted (fun y z => fst y < fst z) (ps1 ++ (x, t) :: ps2) /\
    (forall i u, In (i, u) (ps1 ++ (x, t) :: ps2) <-> last_of (fun e => pe_playlist e = id /\ pe_index e = i) (es1 ++ mk_pentry x t id :: es2) (mk_pentry i u id)).
Proof.
  intros HF S HP.
  assert (forall i u, In (i, u) ps -> i <> x) as NX. { intros i u I ->. apply HP, last_of_in in I as [I E]. rewrite Forall_forall in HF. now apply (HF _ I). }
  set (ps1 := filter (fun y => fst y <? x) ps). set (ps2 := filter (fun y => x <? fst y) ps).
  assert (forall y, In y ps1 -> fst y < x) as P1 by (intros y I; apply filter_In in I as [_ I]; lia). assert (forall y, In y ps2 -> x < fst y) as P2 by (intros y I; apply filter_In in I as [_ I]; lia).
  assert (StronglySorted (fun y z => fst y < fst z) ps1) as S1 by now apply sorted_filter. assert (StronglySorted (fun y z => fst y < fst z) ps2) as S2 by now apply sorted_filter.
  assert (ps = ps1 ++ ps2) as EP.
  { apply sorted_ext; [easy|apply sorted_app; try easy; intros p q IP IQ; apply P1 in IP; apply P2 in IQ; lia|]. intros [i u]. rewrite in_app_iff. unfold ps1, ps2. rewrite !filter_In. cbn [fst].
    split; [intro I; pose proof (NX i u I); destruct (i <? x) eqn:E; [left|right]; split; try easy; lia|tauto]. }
  clearbody ps1 ps2. exists ps1, ps2. split; [easy|]. split; [now apply Forall_forall|]. split; [now apply Forall_forall|]. intro t. split.
  - apply sorted_app; [easy| |].
    + constructor; [easy|]. apply Forall_forall. intros q I. now apply P2.
    + intros p q IP IQ. apply P1 in IP. destruct IQ as [<-|IQ]; [easy|]. apply P2 in IQ. lia.
  - intros i u. transitivity ((i, u) = (x, t) \/ In (i, u) ps).
    + rewrite EP, !in_app_iff. cbn [In]. intuition congruence.
    + destruct (N.eq_dec i x) as [->|NE].
      * rewrite (last_of_only (fun e => pe_playlist e = id /\ pe_index e = x)) by easy. split; [|intros [= ->]; now left]. intros [[= ->]|I]; [easy|]. now apply NX in I.
      * rewrite last_of_middle by (cbn [pe_index]; intros [_ E]; now symmetry in E). rewrite <- HP. split; [|now right]. intros [[= E _]|I]; [now subst|easy].
Qed.
(** The lines of a node, its entries before and behind the new one *)
Lemma lines_insert es1 es2 x id arts trs k n : Forall (fun e => ~ (pe_playlist e = id /\ pe_index e = x)) (es1 ++ es2) -> nd_id n = id ->
  exists ps1 ps2 ls1 ls2, Forall (fun y => fst y < x) ps1 /\ Forall (fun y => x < fst y) ps2 /\
    Forall2 (fun y it => track_line arts trs k (fst y) (snd y) it) ps1 ls1 /\ Forall2 (fun y it => track_line arts trs k (fst y) (snd y) it) ps2 ls2 /\
    node_lines (es1 ++ es2) arts trs (k, n) (([nd_name n], LNode k (nd_folder n) (nd_name n)) :: ls1 ++ ls2) /\
    forall t, exists it, track_line arts trs k x t it /\ node_lines (es1 ++ mk_pentry x t id :: es2) arts trs (k, n) (([nd_name n], LNode k (nd_folder n) (nd_name n)) :: ls1 ++ it :: ls2).
Proof.
  intros HF EI. destruct (row_items_lines (es1 ++ es2) arts trs (k, n)) as (ps & ls & _ & S & HP & F). cbn [fst snd] in *. rewrite EI in HP.
  destruct (indices_insert es1 es2 x id ps HF S HP) as (ps1 & ps2 & -> & P1 & P2 & SH). apply Forall2_app_inv_l in F as (ls1 & ls2 & F1 & F2 & ->).
  exists ps1, ps2, ls1, ls2. do 4 (split; [easy|]). split.
  - exists (ps1 ++ ps2), (ls1 ++ ls2). cbn [fst snd]. rewrite EI. split; [easy|]. split; [easy|]. split; [easy|]. now apply Forall2_app.
  - intro t. destruct (SH t) as [S' HP']. exists (track_item (insert_all arts) (insert_all trs) k x t). split; [apply track_item_line|]. exists (ps1 ++ (x, t) :: ps2), (ls1 ++ track_item (insert_all arts) (insert_all trs) k x t :: ls2). cbn [fst snd]. rewrite EI. split; [easy|]. split; [easy|]. split; [easy|]. apply Forall2_app; [easy|]. constructor; [apply track_item_line|easy].
Qed.
Lemma lines_other es1 es2 x t id arts trs y l : nd_id (snd y) <> id -> node_lines (es1 ++ es2) arts trs y l -> node_lines (es1 ++ mk_pentry x t id :: es2) arts trs y l.
Proof.
  intros NE (ps & ls & E & S & HP & F). exists ps, ls. split; [easy|]. split; [easy|]. split; [|easy]. intros i u. rewrite HP, last_of_middle; [easy|]. cbn [pe_playlist]. intros [E1 _]. now apply NE.
Qed.

(** ** One node more, without children *)
Lemma visit_leaf ns1 n ns2 : nd_parent n <> nd_id n -> Forall (fun m => nd_parent m <> nd_id n) (ns1 ++ ns2) -> Forall (fun m => nd_id m <> nd_id n) (ns1 ++ ns2) ->
  forall depth id level v, visit depth (ns1 ++ ns2) id level = Some v -> exists v', visit (S depth) (ns1 ++ n :: ns2) id level = Some v' /\ v = filter (fun x => negb (nd_id (snd x) =? nd_id n)) v'.
Proof.
  intros HP HK HI. set (g := fun x : nat * node => negb (nd_id (snd x) =? nd_id n)). induction depth as [|depth IH]; intros id level v H; [easy|].
  remember (S depth) as e eqn:EE. cbn [visit]. subst e.
  set (F := fun m => option_map (cons (level, m)) (visit (S depth) (ns1 ++ n :: ns2) (nd_id m) (S level))).
  assert (forall l v, Forall (fun m => nd_id m <> nd_id n) l -> opt_flat (fun n => option_map (cons (level, n)) (visit depth (ns1 ++ ns2) (nd_id n) (S level))) l = Some v -> exists v', opt_flat F l = Some v' /\ v = filter g v') as HL.
  { clear -IH. induction l as [|m l IHl]; intros v HF H; cbn [opt_flat] in *; [injection H as <-; now exists []|]. inversion HF as [|? ? HM HF']; subst.
    destruct (visit depth (ns1 ++ ns2) (nd_id m) (S level)) as [u|] eqn:V; [|easy]. cbn [option_map] in H. destruct (opt_flat _ l) as [w|] eqn:W; [|easy]. injection H as <-.
    destruct (IH _ _ _ V) as (u' & V' & ->). destruct (IHl w HF' eq_refl) as (w' & W' & ->). exists ((level, m) :: u' ++ w'). unfold F at 1. rewrite V'. cbn [option_map]. rewrite W'. split; [easy|].
    change (((level, m) :: filter g u') ++ filter g w' = filter g ((level, m) :: u' ++ w')). cbn [filter]. unfold g at 3. cbn [snd]. replace (nd_id m =? nd_id n) with false by lia. cbn [negb]. now rewrite filter_app. }
  cbn [visit] in H. rewrite kids_app in H. rewrite kids_insert.
  assert (forall l l' v, opt_flat (fun n => option_map (cons (level, n)) (visit depth (ns1 ++ ns2) (nd_id n) (S level))) (l ++ l') = Some v -> exists a b, v = a ++ b /\
    opt_flat (fun n => option_map (cons (level, n)) (visit depth (ns1 ++ ns2) (nd_id n) (S level))) l = Some a /\ opt_flat (fun n => option_map (cons (level, n)) (visit depth (ns1 ++ ns2) (nd_id n) (S level))) l' = Some b) as HA.
  { clear. induction l as [|m l IHl]; intros l' v H; [now exists [], v|]. cbn [List.app opt_flat] in *. destruct (option_map _ _) as [u|]; [|easy]. destruct (opt_flat _ (l ++ l')) as [w|] eqn:W; [|easy]. injection H as <-.
    destruct (IHl l' w W) as (a & b & -> & A & B). exists (u ++ a), b. rewrite A. split; [now rewrite app_assoc|easy]. }
  assert (forall l l' a b, opt_flat F l = Some a -> opt_flat F l' = Some b -> opt_flat F (l ++ l') = Some (a ++ b)) as HB.
  { clear. induction l as [|m l IHl]; intros l' a b A B; cbn [List.app opt_flat] in *; [now injection A as <-|]. destruct (F m) as [u|]; [|easy]. destruct (opt_flat F l) as [w|]; [|easy]. injection A as <-.
    rewrite (IHl l' w b eq_refl B). now rewrite app_assoc. }
  apply HA in H as (a & b & -> & HA1 & HB1). apply Forall_app in HI as [HI1 HI2].
  assert (forall l, Forall (fun m => nd_id m <> nd_id n) l -> Forall (fun m => nd_id m <> nd_id n) (kids l id)) as HKI by (intros l HF; unfold kids; rewrite Forall_forall in *; intros m I; apply filter_In in I as [I _]; now apply HF).
  destruct (HL _ _ (HKI _ HI1) HA1) as (a' & EA & ->). destruct (HL _ _ (HKI _ HI2) HB1) as (b' & EB & ->).
  destruct (nd_parent n =? id) eqn:EP.
  - exists (a' ++ (level, n) :: b'). split.
    + apply HB; [easy|]. cbn [List.app opt_flat]. rewrite EB. unfold F. remember (S depth) as e. destruct e as [|e]; [easy|]. cbn [visit]. rewrite kids_insert.
      replace (nd_parent n =? nd_id n) with false by lia. apply Forall_app in HK as [HK1 HK2]. rewrite (kids_none ns1), (kids_none ns2) by easy. reflexivity.
    + rewrite filter_app. cbn [filter]. unfold g at 4. cbn [snd]. now rewrite N.eqb_refl.
  - exists (a' ++ b'). split; [now apply HB|]. now rewrite filter_app.
Qed.
