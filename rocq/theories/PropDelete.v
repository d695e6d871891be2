(** * Property C98: deleting rows *)
From Coq Require Import NArith ZArith List Bool Lia.
From Coq Require Import ZifyBool ZifyNat ZifyN.
From Verif Require Import Base BaseFacts Segs Str StrFacts StrGood Schema SchemaFacts Oa OaFacts OaSpec Rows RowFacts RowSpec Page BitFacts PageFacts PageRw PageSpec Alloc AllocFacts AllocSpec
  Db DbFacts DbFlush DbFresh Reread Progress Insert Session Delete Revise PropAlloc PropSession PropRevise.
Import ListNotations.
Open Scope N_scope.

(** A program opens the file, takes the row [r] out of page [j] as in Delete.v, and saves.  Afterwards the file can be opened; its header is the same.
    If the page belongs to the table of rows of type [k'], the row iterator shows the rows that it showed before, in the same order, without [r]; otherwise it shows the same rows. *)
Lemma without_split {X} (a : list X) r z : without (len a) (a ++ r :: z) = a ++ z.
Proof.
  unfold without, len. rewrite Nnat.Nat2N.id. rewrite firstn_app, firstn_all, Nat.sub_diag. cbn [firstn]. rewrite app_nil_r. f_equal.
  rewrite skipn_app. rewrite skipn_all2 by lia. replace (length a + 1 - length a)%nat with 1%nat by lia. reflexivity.
Qed.
Lemma path_other A last j s s' : A j = Some s -> sh_next s' = sh_next s -> forall n l, path A last n l -> path (put A j s') last n l.
Proof.
  intros EA EN n l H. induction H as [s0 E|n s0 l NE E HI HP IH].
  - destruct (last =? j) eqn:EJ; [apply (path_last _ _ s')|apply (path_last _ _ s0)]; unfold put; now rewrite EJ.
  - destruct (n =? j) eqn:EJ.
    + assert (n = j) as -> by lia. rewrite EA in E. injection E as <-. apply (path_step _ _ j s'); [easy|unfold put; now rewrite N.eqb_refl|now rewrite EN|now rewrite EN].
    + apply (path_step _ _ n s0); try easy. unfold put. now rewrite EJ.
Qed.
Lemma path_once A last : forall n l j, path A last n l -> In j l -> exists l1 l2, l = l1 ++ j :: l2 /\ ~ In j l1 /\ ~ In j l2.
Proof.
  intros n l j H. induction H as [s E|n s l NE E HI HP IH]; intro HJ.
  - destruct HJ as [->|[]]. exists [], []. now repeat split.
  - pose proof (path_ge _ _ _ _ HP) as HG. assert (~ In n l) as HN by (intro HX; rewrite Forall_forall in HG; apply HG in HX; lia). destruct HJ as [->|HJ].
    + exists [], l. now repeat split.
    + destruct (IH HJ) as (l1 & l2 & -> & H1 & H2). exists (n :: l1), l2. split; [easy|]. split; [|easy]. intros [->|HX]; [|easy]. apply HN. now apply in_elt.
Qed.
Lemma same_trans r r1 r2 : same_values r r1 -> same_values r r2 -> same_values r1 r2.
Proof. destruct r as [k vs oc|], r1 as [k1 v1 o1|], r2 as [k2 v2 o2|]; cbn; try easy. intros (-> & -> & E1) (-> & -> & E2). now rewrite E1, E2. Qed.
Lemma sames_trans l l1 l2 : Forall2 same_values l l1 -> Forall2 same_values l l2 -> Forall2 same_values l1 l2.
Proof. intro H. revert l2. induction H as [|r r1 l l1 H1 _ IH]; intros l2 H2; inversion H2; subst; constructor; [now apply (same_trans r)|now apply IH]. Qed.
Theorem c98_deleted : forall b k io d G A j s a r z io',
  bytes_ok io -> len io < 2 ^ 64 - 1 -> db_open io k = DOk d -> 28 + 16 * len (dh_tables (db_header d)) <= dh_page_size (db_header d) ->
  (forall i s, A i = Some s -> exists p, good_page b d (G i) i p /\ like s p) ->
  A j = Some s -> G j <> GAny -> sh_rows s = a ++ r :: z -> program b k io [ADelete j (len a)] io' ->
  exists d', db_open io' k = DOk d' /\ db_header d' = db_header d /\
    forall k' i t l, find_table (PT k') (db_header d) = Some (i, t) -> path A (tb_last t) (tb_first t) l -> forallb (is_variant k') (flat_map (shelf_rows A) l) = true ->
      (In j l -> exists x r1 y x' y', same_values r r1 /\ Forall2 same_values x x' /\ Forall2 same_values y y' /\
         snd (iter_rows b k' d) = Some (DOk (x ++ r1 :: y)) /\ snd (iter_rows b k' d') = Some (DOk (x' ++ y'))) /\
      (~ In j l -> exists x x', Forall2 same_values x x' /\ snd (iter_rows b k' d) = Some (DOk x) /\ snd (iter_rows b k' d') = Some (DOk x')).
Proof.
  intros b k io d G A j s a r z io' HB HL HO HP HA EA HG ES HR. pose proof (open_stores b io k d G A HB HL HO HP HA) as HST.
  assert (acts_ok b (db_header d) G (fun _ => []) A [ADelete j (len a)]) as HAO by (cbn [acts_ok act_ok]; split; [split; [now exists s|easy]|exact I]).
  destruct (program_stores b k io _ io' d G (fun _ => []) A HO HST HAO HR) as (d' & D1 & D2 & D3). cbn [acts_work fold_left act_work] in D3. rewrite EA in D3.
  exists d'. split; [exact D1|]. split; [exact D2|]. intros k' i t l HT HPA HV. destruct (stores_rows b d G A k' i t l HST HT HPA HV) as (rows & R1 & R2).
  assert (sh_rows (take_out (len a) s) = a ++ z) as ET by (cbn [take_out sh_rows]; rewrite ES; apply without_split).
  pose proof (path_other A (tb_last t) j s (take_out (len a) s) EA eq_refl _ _ HPA) as HPA'. rewrite <- D2 in HT. split; intro HJ.
  - destruct (path_once _ _ _ _ _ HPA HJ) as (l1 & l2 & -> & N1 & N2).
    assert (flat_map (shelf_rows A) (l1 ++ j :: l2) = (flat_map (shelf_rows A) l1 ++ a) ++ r :: (z ++ flat_map (shelf_rows A) l2)) as E1.
    { rewrite flat_map_app. cbn [flat_map]. unfold shelf_rows at 2. rewrite EA, ES, <- !app_assoc. cbn [app]. now rewrite <- ?app_assoc. }
    assert (flat_map (shelf_rows (put A j (take_out (len a) s))) (l1 ++ j :: l2) = (flat_map (shelf_rows A) l1 ++ a) ++ (z ++ flat_map (shelf_rows A) l2)) as E2.
    { rewrite flat_map_app. cbn [flat_map]. rewrite !put_rows by easy. unfold shelf_rows at 2. unfold put at 1. rewrite N.eqb_refl, ET, <- !app_assoc. reflexivity. }
    rewrite E1 in R2, HV. destruct (stores_rows b d' G _ k' i t _ D3 HT HPA') as (rows' & R3 & R4).
    { rewrite E2. rewrite forallb_app in *. cbn [forallb] in HV. apply andb_true_iff in HV as [V1 V2]. apply andb_true_iff in V2 as [_ V2]. now rewrite V1, V2. }
    rewrite E2 in R4. apply Forall2_app_inv_l in R2 as (x & y0 & X1 & X2 & ->). inversion X2 as [|? r1 ? y X3 X4]; subst. apply Forall2_app_inv_l in R4 as (x' & y' & X5 & X6 & ->).
    exists x, r1, y, x', y'. split; [exact X3|]. split; [now apply (sames_trans _ _ _ X1)|]. split; [now apply (sames_trans _ _ _ X4)|]. now split.
  - destruct (stores_rows b d' G _ k' i t l D3 HT HPA') as (rows' & R3 & R4); [now rewrite put_rows|]. rewrite put_rows in R4 by easy. exists rows, rows'. split; [now apply (sames_trans _ _ _ R2)|]. now split.
Qed.
Print Assumptions c98_deleted.
(** Such a program never fails or panics, whatever row it asks for. *)
Theorem c98_run : forall b k io d G A j s i,
  bytes_ok io -> len io < 2 ^ 64 - 1 -> db_open io k = DOk d -> 28 + 16 * len (dh_tables (db_header d)) <= dh_page_size (db_header d) -> dh_page_size (db_header d) <= 4096 ->
  (forall i s, A i = Some s -> exists p, good_page b d (G i) i p /\ like s p) -> A j = Some s -> G j <> GAny -> exists io', program b k io [ADelete j i] io'.
Proof.
  intros b k io d G A j s i HB HL HO HP H4 HA EA HG. pose proof (open_stores b io k d G A HB HL HO HP HA) as HST.
  apply (program_runs b k io _ d G (fun _ => []) A HO HST H4). cbn [acts_ok act_ok]. split; [split; [now exists s|easy]|exact I].
Qed.
Print Assumptions c98_run.

(** The space of deleted rows is lost: a page that has no room for a row has none after any of its rows were deleted. *)
Fixpoint deletes (b : build) (l : list N) (p : page) : res page :=
  match l with [] => Ok p | i :: rest => do! q <- delete_row b i p; deletes b rest q end.
Lemma delete_same b i p q : delete_row b i p = Ok q -> ph_free (pg_header q) = ph_free (pg_header p) /\ match pg_content p, pg_content q with PData _, PData _ | PIndex _, PIndex _ => True | _, _ => False end.
Proof.
  unfold delete_row. destruct (pg_content p) as [c|c] eqn:EC; [|intros [= <-]; now rewrite EC]. destruct (getN (dc_rows c) i) as [[o r]|]; [|intros [= <-]; now rewrite EC].
  destruct (wsub b 16 (c_valid (ph_counts (pg_header p))) 1) as [v| |]; try easy. cbn [res_bind]. destruct (set_valid (ph_counts (pg_header p)) v) as [n| |]; try easy. cbn [res_bind]. intros [= <-]. now split.
Qed.
Theorem c98_space : forall b l p q n, deletes b l p = Ok q -> n <= 65528 -> alloc_row b n p = Ok (p, None) -> alloc_row b n q = Ok (q, None).
Proof.
  intros b l p q n H HN. revert p H. induction l as [|i l IH]; intros p H; [now injection H as ->|]. cbn [deletes] in H. destruct (delete_row b i p) as [p1| |] eqn:E; try easy. cbn [res_bind] in H.
  intro HA. apply (IH p1 H). apply delete_same in E as [E1 E2]. apply c20_refused in HA; [|easy]. apply c20_refused; [easy|].
  destruct (pg_content p), (pg_content p1); try easy. now rewrite E1.
Qed.
Print Assumptions c98_space.
(** ** Example: the file of C75.  The first key is deleted; its bytes stay in the file. *)
Example c98_example : exists io', program Debug DbPlain c75_io [ADelete 1 (len (@nil row))] io' /\ exists d', db_open io' DbPlain = DOk d' /\
  snd (iter_rows Debug KKey c75_open) = Some (DOk (map snd c18_rows)) /\ snd (iter_rows Debug KKey d') = Some (DOk [RRow KKey [VInt 2; VInt 2; VStr (DSShort [66])] None]) /\ len io' = len c75_io.
Proof.
  eexists. split.
  - eexists _, _, _. split; [exact c75_opens|]. split; [|split; [|reflexivity]]. eapply acts_cons; [eapply does_delete; vm_compute; reflexivity|]. apply acts_nil. vm_compute. reflexivity.
  - eexists. split; [vm_compute; reflexivity|]. split; [vm_compute; reflexivity|]. split; vm_compute; reflexivity.
Qed.
Example c98_example_hyp : exists s, c75_shelves 1 = Some s /\ GGrow <> GAny /\ sh_rows s = [] ++ RRow KKey [VInt 1; VInt 1; VStr (DSShort [65; 109])] None :: [RRow KKey [VInt 2; VInt 2; VStr (DSShort [66])] None] /\
  find_table (PT KKey) c75_header = Some (0, mk_table (PT KKey) 9 1 1) /\ path c75_shelves 1 1 [1] /\ forallb (is_variant KKey) (flat_map (shelf_rows c75_shelves) [1]) = true.
Proof. eexists. split; [reflexivity|]. split; [discriminate|]. repeat (split; [reflexivity|]). split; [now eapply path_last|reflexivity]. Qed.
(** Deleting and inserting in one program (C78): the new row comes last. *)
Example c98_insert : exists io', program Debug DbPlain c75_io [ADelete 1 1; AInsert 1 [(11, Some c18_new)]] io' /\ exists d', db_open io' DbPlain = DOk d' /\
  snd (iter_rows Debug KKey d') = Some (DOk [RRow KKey [VInt 1; VInt 1; VStr (DSShort [65; 109])] None; c18_new]) /\
  acts_ok Debug c75_header (fun _ => GGrow) c78_tables c75_shelves [ADelete 1 1; AInsert 1 [(11, Some c18_new)]] /\
  shelf_rows (acts_work c78_tables c75_shelves [ADelete 1 1; AInsert 1 [(11, Some c18_new)]]) 1 = [RRow KKey [VInt 1; VInt 1; VStr (DSShort [65; 109])] None; c18_new].
Proof.
  eexists. split.
  - eexists _, _, _. split; [exact c75_opens|]. split; [|split; [|reflexivity]]. eapply acts_cons; [eapply does_delete; vm_compute; reflexivity|]. eapply acts_cons; [eapply does_insert; vm_compute; reflexivity|]. apply acts_nil. vm_compute. reflexivity.
  - eexists. split; [vm_compute; reflexivity|]. split; [vm_compute; reflexivity|]. split; [|vm_compute; reflexivity].
    pose proof c19_example_ops as HO. unfold c19_ops in HO. inversion HO as [|? ? O1 _]; subst. cbn [acts_ok act_ok]. split; [split; [now eexists|discriminate]|]. split; [|exact I].
    eexists. split; [reflexivity|]. right. split; [reflexivity|]. cbn [snd]. apply Forall_cons; [|apply Forall_nil]. split; [exact O1|]. cbn [snd]. eexists; vm_compute; reflexivity.
Qed.
Example c98_full : exists q, deletes Debug [1; 0] c75_page = Ok q /\ rows_of_page q = [] /\ alloc_row Debug 107 c75_page = Ok (c75_page, None) /\ alloc_row Debug 107 q = Ok (q, None).
Proof. eexists. split; [vm_compute; reflexivity|]. split; [reflexivity|]. split; vm_compute; reflexivity. Qed.

(** All three changes are needed, and the library notices a missing one only when the page is read again.  [change_page f] is a program that loads page 1, applies [f] to it and saves. *)
Definition change_page (b : build) (k : dbtype) (io : list N) (f : page -> page) (d' : database) : Prop :=
  exists d d1 p d2, db_open io k = DOk d /\ load_page b d 1 = (d1, DOk p) /\ flush b (set_page d1 1 (f p)) = DOk d2 /\ db_open (db_io d2) k = DOk d'.
Definition drop_from (o : N) (map_too flag_too : bool) (v : N) (p : page) : page :=
  match pg_content p with
  | PData c => mk_page (phdr_upd (pg_header p) (mk_counts (c_rows (ph_counts (pg_header p))) v) (ph_free (pg_header p)) (ph_used (pg_header p)))
      (PData (mk_dcontent (dc_header c) (if flag_too then map (clear_offset o) (dc_groups c) else dc_groups c) (if map_too then map_remove o (dc_rows c) else dc_rows c)))
  | PIndex _ => p
  end.
(** Without a change of flags and number: the row is gone in memory and is there again when the file is opened. *)
Theorem c98_map_only_refuted : exists io d', change_page Debug DbPlain io (drop_from 0 true false 2) d' /\ rows_of_page (drop_from 0 true false 2 c75_page) = [RRow KKey [VInt 2; VInt 2; VStr (DSShort [66])] None] /\
  snd (iter_rows Debug KKey d') = Some (DOk (map snd c18_rows)).
Proof.
  exists c75_io. eexists. split.
  - eexists _, _, _, _. split; [exact c75_opens|]. split; [vm_compute; reflexivity|]. split; vm_compute; reflexivity.
  - split; vm_compute; reflexivity.
Qed.
Print Assumptions c98_map_only_refuted.
(** Without a change of the number, or of the flags: saving succeeds, the table cannot be read any more. *)
Theorem c98_number_refuted : exists io d', change_page Debug DbPlain io (drop_from 0 true true 2) d' /\ exists e, snd (iter_rows Debug KKey d') = Some (DErr e).
Proof.
  exists c75_io. eexists. split.
  - eexists _, _, _, _. split; [exact c75_opens|]. split; [vm_compute; reflexivity|]. split; vm_compute; reflexivity.
  - eexists. vm_compute; reflexivity.
Qed.
Print Assumptions c98_number_refuted.
Theorem c98_flags_refuted : exists io d', change_page Debug DbPlain io (drop_from 0 true false 1) d' /\ exists e, snd (iter_rows Debug KKey d') = Some (DErr e).
Proof.
  exists c75_io. eexists. split.
  - eexists _, _, _, _. split; [exact c75_opens|]. split; [vm_compute; reflexivity|]. split; vm_compute; reflexivity.
  - eexists. vm_compute; reflexivity.
Qed.
Print Assumptions c98_flags_refuted.
