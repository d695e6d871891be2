(** * Property C127: every content can be stored *)
From Coq Require Import NArith ZArith List Bool Lia Sorted Relations.
From Coq Require Import ZifyBool ZifyNat ZifyN.
From Verif Require Import Base BaseFacts Segs Utf Str StrFacts StrGood Schema SchemaFacts Oa OaFacts OaSpec Rows RowFacts RowSpec Page BitFacts PageFacts PageRw PageSpec Alloc AllocFacts AllocSpec
  Db DbFacts DbFlush DbFresh Reread Progress Insert Session Revise Relink PropAlloc PropSession Writable Dump DumpFacts PropDump PropDumpBytes RowShape Setting Device DeviceFacts DeviceTree Cli CliFacts CliList Listing Fs FsFacts FsExport Compose Graft ComposeList CutLink Append
  PropListing PropCompose PropComposeList PropScratch PropScratchCli PropScratchDump.
Import ListNotations.
Open Scope N_scope.

(** ** Spec *)
(** The content of a database: for each kind, rows with the sizes reserved for them. *)
Definition contents : Type := list (rkind * list (N * option row)).
Definition rows_in_ops (ops : list (N * option row)) : list row := flat_map (fun op => match snd op with Some r => [r] | None => [] end) ops.
(** Every kind is one of the database, at most once; every row can be written, is of its kind and fits on a page of its own. *)
Definition contents_ok (b : build) (db : dbtype) (ps : N) (l : contents) : Prop :=
  NoDup (map fst l) /\ Forall (fun x => In (fst x) (db_kinds db) /\ Forall (fun op => op_fine b (PT (fst x)) op /\ (fst op + 3) / 4 * 4 + 6 <= ps - 40) (snd x)) l.
(** The number of pages if every row has a page of its own, and every table one page more. *)
Definition room (l : contents) : N := fold_right N.add 0 (map (fun x => 1 + len (snd x)) l).

(** ** Layout *)
(** One page for each row, and an empty page at the end, for each table. *)
Fixpoint spread (k : rkind) (i : N) (ops : list (N * option row)) : list plan :=
  match ops with [] => [mk_plan (PT k) (i + 1) []] | op :: ops => mk_plan (PT k) (i + 1) [op] :: spread k (i + 1) ops end.
Fixpoint lay (i : N) (l : contents) : list table * list plan :=
  match l with
  | [] => ([], [])
  | (k, ops) :: l => (mk_table (PT k) 0 i (i + len ops) :: fst (lay (i + 1 + len ops) l), spread k i ops ++ snd (lay (i + 1 + len ops) l))
  end.
Lemma spread_len k : forall ops i, len (spread k i ops) = 1 + len ops.
Proof. induction ops as [|op ops IH]; intro i; [reflexivity|]. cbn [spread]. rewrite !len_cons, IH. lia. Qed.
Lemma spread_rows k : forall ops i, flat_map planned (spread k i ops) = flat_map (fun op => match snd op with Some r => [r] | None => [] end) ops.
Proof. induction ops as [|op ops IH]; intro i; [reflexivity|]. cbn [spread flat_map]. rewrite IH. unfold planned at 1. cbn [pl_ops flat_map]. now rewrite app_nil_r. Qed.
Lemma spread_type k : forall ops i, Forall (fun p => pl_type p = PT k) (spread k i ops).
Proof. induction ops as [|op ops IH]; intro i; cbn [spread]; constructor; easy || apply IH. Qed.
Lemma spread_chain k plans : forall ops i, 1 <= i -> (forall j p, getN (spread k i ops) j = Some p -> getN plans (i - 1 + j) = Some p) -> PropScratch.chain plans (i + len ops) i (spread k i ops).
Proof.
  induction ops as [|op ops IH]; intros i Hi H.
  - change (len (@nil (N * option row))) with 0. rewrite N.add_0_r. apply chain_last; [exact Hi|]. specialize (H 0 _ eq_refl). now rewrite N.add_0_r in H.
  - rewrite len_cons. cbn [spread]. apply chain_step; cbn [pl_next]; try lia; [specialize (H 0 _ eq_refl); now rewrite N.add_0_r in H|]. replace (i + (1 + len ops)) with (i + 1 + len ops) by lia. apply IH; [lia|].
    intros j p E. replace (i + 1 - 1 + j) with (i - 1 + (1 + j)) by lia. apply H. cbn [spread]. rewrite getN_cons. replace (1 + j =? 0) with false by lia. now replace (1 + j - 1) with j by lia.
Qed.
Lemma lay_len : forall l i, len (snd (lay i l)) = room l /\ len (fst (lay i l)) = len l.
Proof. induction l as [|[k ops] l IH]; intro i; [easy|]. cbn [lay fst snd]. destruct (IH (i + 1 + len ops)) as [I1 I2]. unfold room in *. cbn [map fold_right snd]. rewrite len_app, !len_cons, spread_len, I1, I2. lia. Qed.
Lemma spread_ok b db ps k : In k (db_kinds db) -> forall ops i, i + 1 + len ops < 2 ^ 32 -> Forall (fun op => op_fine b (PT k) op /\ (fst op + 3) / 4 * 4 + 6 <= ps - 40) ops -> Forall (plan_ok b db ps) (spread k i ops).
Proof.
  intros HK. induction ops as [|op ops IH]; intros i HL HO; cbn [spread].
  - change (len (@nil (N * option row))) with 0 in HL. constructor; [|constructor]. unfold plan_ok. cbn [pl_type pl_next pl_ops map fold_right]. split; [exact HK|]. split; [lia|]. split; [constructor|lia].
  - inversion HO as [|? ? [O1 O2] O3]; subst. rewrite len_cons in HL. constructor; [|apply IH; [lia|exact O3]]. unfold plan_ok. cbn [pl_type pl_next pl_ops map fold_right]. split; [exact HK|]. split; [lia|]. split; [constructor; [exact O1|constructor]|lia].
Qed.
Lemma lay_ok b db ps : forall l i, i + room l < 2 ^ 32 -> Forall (fun x => In (fst x) (db_kinds db) /\ Forall (fun op => op_fine b (PT (fst x)) op /\ (fst op + 3) / 4 * 4 + 6 <= ps - 40) (snd x)) l ->
  Forall (plan_ok b db ps) (snd (lay i l)) /\ Forall (table_ok db) (fst (lay i l)).
Proof.
  induction l as [|[k ops] l IH]; intros i HL HF; [split; constructor|]. inversion HF as [|? ? [F1 F2] F3]; subst. cbn [fst snd] in *. unfold room in *. cbn [map fold_right snd] in HL. destruct (IH (i + 1 + len ops)) as [I1 I2]; [lia|exact F3|]. cbn [lay fst snd]. split.
  - apply Forall_app. split; [|exact I1]. apply spread_ok; [exact F1|lia|exact F2].
  - constructor; [|exact I2]. unfold table_ok. cbn [tb_type tb_empty tb_first tb_last]. unfold is_u32. split; [exact F1|]. lia.
Qed.
(** Each table has its pages. *)
Lemma lay_tables plans : forall l i, 1 <= i -> (forall j p, getN (snd (lay i l)) j = Some p -> getN plans (i - 1 + j) = Some p) ->
  Forall2 (fun x t => tb_type t = PT (fst x) /\ exists q, PropScratch.chain plans (tb_last t) (tb_first t) q /\ Forall (fun p => pl_type p = PT (fst x)) q /\ flat_map planned q = rows_in_ops (snd x)) l (fst (lay i l)).
Proof.
  induction l as [|[k ops] l IH]; intros i Hi H; [constructor|]. cbn [lay fst snd] in *. constructor.
  - cbn [tb_type tb_last tb_first fst snd]. split; [reflexivity|]. exists (spread k i ops). split; [|split; [apply spread_type|apply spread_rows]]. apply spread_chain; [exact Hi|]. intros j p E. apply H. rewrite getN_app. apply getN_Some_lt in E as L. now replace (j <? len (spread k i ops)) with true by lia.
  - apply IH; [lia|]. intros j p E. replace (i + 1 + len ops - 1 + j) with (i - 1 + (1 + len ops + j)) by lia. apply H. rewrite getN_app, spread_len. replace (1 + len ops + j <? 1 + len ops) with false by lia. now replace (1 + len ops + j - (1 + len ops)) with j by lia.
Qed.
Lemma find_listed (R : rkind * list (N * option row) -> table -> Prop) : forall l ts, Forall2 (fun x t => tb_type t = PT (fst x) /\ R x t) l ts -> NoDup (map fst l) -> forall x i, In x l -> exists j t, find_from i (PT (fst x)) ts = Some (j, t) /\ R x t.
Proof.
  intros l ts H. induction H as [|y t l ts [E HR] _ IH]; intros ND x i HI; [destruct HI|]. inversion ND as [|? ? N1 N2]; subst. cbn [find_from]. rewrite E. destruct HI as [<-|HI].
  - assert (ptype_eqb (PT (fst y)) (PT (fst y)) = true) as -> by (cbn; now destruct (rkind_eq_dec (fst y) (fst y))). now exists i, t.
  - assert (ptype_eqb (PT (fst y)) (PT (fst x)) = false) as ->. { cbn. destruct (rkind_eq_dec (fst y) (fst x)) as [EQ|]; [|reflexivity]. exfalso. apply N1. rewrite EQ. now apply in_map. }
    now apply IH.
Qed.

Lemma laid b db ps l : 40 <= ps -> ps <= 4096 -> 28 + 16 * len l <= ps -> 1 + room l < 2 ^ 32 -> contents_ok b db ps l ->
  exists h plans io, (dbhdr_ok db h /\ dh_next h = 1 /\ 28 + 16 * len (dh_tables h) <= dh_page_size h /\ 40 <= dh_page_size h /\ dh_page_size h <= 4096 /\ 1 + len plans < 2 ^ 32 /\ Forall (plan_ok b db (dh_page_size h)) plans) /\
  makes b db h plans io /\ (forall k ops, In (k, ops) l -> planned_rows h plans k (rows_in_ops ops)) /\
  exists qs, Forall2 (planned_table plans false) (dh_tables h) qs /\ flat_map planned (concat qs) = flat_map (fun x => rows_in_ops (snd x)) l.
Proof.
  intros P1 P2 HP HR [ND HF]. set (h := mk_dbhdr ps (len l) 1 0 0 (fst (lay 1 l))). set (plans := snd (lay 1 l)). exists h, plans. destruct (lay_len l 1) as [L1 L2]. fold plans in L1. destruct (lay_ok b db ps l 1 HR HF) as [K1 K2]. fold plans in K1.
  assert (dbhdr_ok db h) as HH. { unfold dbhdr_ok, h, is_u32. cbn [dh_page_size dh_num dh_next dh_unknown dh_seq dh_tables]. rewrite L2. repeat (split; [lia|]). exact K2. }
  assert (28 + 16 * len (dh_tables h) <= dh_page_size h) as H28 by (unfold h; cbn [dh_tables dh_page_size]; rewrite L2; exact HP).
  assert (1 + len plans < 2 ^ 32) as HL by (rewrite L1; exact HR).
  destruct (c124_makes b db h plans HH eq_refl H28 P1 P2 HL K1) as [io HM]. exists io. split; [easy|]. split; [exact HM|].
  pose proof (lay_tables plans l 1 ltac:(lia)) as HT. specialize (HT ltac:(intros j p E; replace (1 - 1 + j) with j by lia; exact E)). split.
  - intros k ops HI.
    destruct (find_listed (fun x t => exists q, PropScratch.chain plans (tb_last t) (tb_first t) q /\ Forall (fun p => pl_type p = PT (fst x)) q /\ flat_map planned q = rows_in_ops (snd x)) l _ HT ND (k, ops) 0 HI) as (j & t & E & q & Q1 & Q2 & Q3).
    exists j, t, q. now repeat (split; [assumption|]).
  - change (dh_tables h) with (fst (lay 1 l)). clear - HT. clearbody plans. revert HT. generalize (fst (lay 1 l)). intros ts0 HT. induction HT as [|x t l0 ts (E & q & C1 & C2 & C3) _ (qs & Q1 & Q2)]; [exists []; split; [constructor|reflexivity]|].
    exists (q :: qs). split; [constructor; [right; split; [right; now exists (fst x)|exact C1]|exact Q1]|]. cbn [concat flat_map]. now rewrite flat_map_app, C3, Q2.
Qed.

(** ** Property *)
(** Whatever rows a database should have, as long as each of them fits on a page: there is a program that makes a file which shows exactly these rows in every table, and whose dump shows exactly these
    rows if their texts can be printed. *)
Theorem c127_content : forall b db ps l, 40 <= ps -> ps <= 4096 -> 28 + 16 * len l <= ps -> 1 + room l < 2 ^ 32 -> contents_ok b db ps l ->
  exists h plans io, makes b db h plans io /\ (forall k ops, In (k, ops) l -> shown b db k io (rows_in_ops ops)) /\
  let rows := flat_map (fun x => rows_in_ops (snd x)) l in
  (rows_print rows -> exists evs, dump_pdb b io db false = Some (evs, DOk tt) /\ no_message evs /\ rows_shown evs = map content_of rows /\ entries_shown evs = []).
Proof.
  intros b db ps l P1 P2 HP HR HC. destruct (laid b db ps l P1 P2 HP HR HC) as (h & plans & io & (M1 & M2 & M3 & M4 & M5 & M6 & M7) & M8 & HT & qs & Q1 & Q2). exists h, plans, io. split; [exact M8|]. split.
  - intros k ops HI. destruct (HT k ops HI) as (i & t & q & T1 & T2 & T3 & ->). destruct (c124_made b db h plans io M1 M2 M3 M4 M5 M6 M7 M8) as [_ HS]. now apply (HS k i t q).
  - cbv zeta. destruct (c126_made b db h plans io false qs M1 M2 M3 M4 M5 M6 M7 M8 Q1) as [HD _]. rewrite Q2 in HD. exact HD.
Qed.
Print Assumptions c127_content.
(** Any playlists: for all nodes, artists, tracks and entries whose rows fit on a page there is a file with this listing (see C125). *)
Theorem c127_listing : forall b ps l On Oa Ot Oe, 40 <= ps -> ps <= 4096 -> 28 + 16 * len l <= ps -> 1 + room l < 2 ^ 32 -> contents_ok b DbPlain ps l ->
  In (KPlaylistTreeNode, On) l -> In (KArtist, Oa) l -> In (KTrack, Ot) l -> In (KPlaylistEntry, Oe) l ->
  exists io ns arts trs es, Forall2 (fun r x => node_of_row r = Some x) (rows_in_ops On) ns /\ Forall2 (fun r x => artist_of_row r = Some x) (rows_in_ops Oa) arts /\
    Forall2 (fun r x => listed_track_of_row r = Some x) (rows_in_ops Ot) trs /\ Forall2 (fun r x => pentry_of_row r = Some x) (rows_in_ops Oe) es /\
    (distinct ns -> exists v f, ordered ns v /\ (forall y, node_lines es arts trs y (f y)) /\ lists b io ns v f).
Proof.
  intros b ps l On Oa Ot Oe P1 P2 HP HR HC In1 In2 In3 In4. destruct (laid b DbPlain ps l P1 P2 HP HR HC) as (h & plans & io & (M1 & M2 & M3 & M4 & M5 & M6 & M7) & M8 & HT & _). exists io. apply (c125_listing b h plans io (rows_in_ops On) (rows_in_ops Oa) (rows_in_ops Ot) (rows_in_ops Oe)).
  - unfold made. tauto.
  - now apply HT.
  - now apply HT.
  - now apply HT.
  - now apply HT.
Qed.
Print Assumptions c127_listing.
(** The same for the export of the playlists. *)
Theorem c127_export : forall b ps l On Oe Ot, 40 <= ps -> ps <= 4096 -> 28 + 16 * len l <= ps -> 1 + room l < 2 ^ 32 -> contents_ok b DbPlain ps l ->
  In (KPlaylistTreeNode, On) l -> In (KPlaylistEntry, Oe) l -> In (KTrack, Ot) l ->
  exists io d ns es raw, db_open io DbPlain = DOk d /\
    Forall2 (fun r x => node_of_row r = Some x) (rows_in_ops On) ns /\ Forall2 (fun r x => pentry_of_row r = Some x) (rows_in_ops Oe) es /\ Forall2 (fun r x => track_of_row r = Some x) (rows_in_ops Ot) raw /\
    forall depth out canon ops, export b depth d out canon = Some (Done ops) <-> exists tr ts c,
      Forall2 (fun x y => fst x = fst y /\ dstr_into_string (snd x) = inl (snd y)) raw tr /\ playlist_tree depth ns = Some (Done ts) /\
      (forall id, playlist_text canon es tr id (c id)) /\ ops = flat_map (fun t => walk c t out) ts.
Proof.
  intros b ps l On Oe Ot P1 P2 HP HR HC In1 In2 In3. destruct (laid b DbPlain ps l P1 P2 HP HR HC) as (h & plans & io & (M1 & M2 & M3 & M4 & M5 & M6 & M7) & M8 & HT & _). exists io.
  apply (c125_export b h plans io); [unfold made; tauto|now apply HT|now apply HT|now apply HT].
Qed.
Print Assumptions c127_export.

(** Two programs that leave the same bytes have put in the same header and the same rows, value by value. *)
Theorem c127_distinct : forall b db h plans h' plans' io, dbhdr_ok db h -> dbhdr_ok db h' -> dh_next h = 1 -> dh_next h' = 1 -> let ps := dh_page_size h in let ps' := dh_page_size h' in
  28 + 16 * len (dh_tables h) <= ps -> 28 + 16 * len (dh_tables h') <= ps' -> 40 <= ps -> ps <= 4096 -> 40 <= ps' -> ps' <= 4096 -> 1 + len plans < 2 ^ 32 -> 1 + len plans' < 2 ^ 32 ->
  Forall (plan_ok b db ps) plans -> Forall (plan_ok b db ps') plans' -> makes b db h plans io -> makes b db h' plans' io ->
  h' = h /\ len plans' = len plans /\ forall k rows rows', planned_rows h plans k rows -> planned_rows h' plans' k rows' -> Forall2 same_values rows rows'.
Proof.
  intros b db h plans h' plans' io H1 H1' H2 H2' ps ps' H3 H3' H4 H5 H4' H5' H6 H6' H7 H7' HM HM'. destruct (c124_made b db h plans io H1 H2 H3 H4 H5 H6 H7 HM) as [(d & D1 & D2) HS]. destruct (c124_made b db h' plans' io H1' H2' H3' H4' H5' H6' H7' HM') as [(d' & D1' & D2') HS'].
  assert (d' = d) as -> by congruence. rewrite D2 in D2'. pose proof (f_equal dh_next D2') as EN. pose proof (f_equal dh_page_size D2') as E1. pose proof (f_equal dh_num D2') as E2. pose proof (f_equal dh_unknown D2') as E4. pose proof (f_equal dh_seq D2') as E5. pose proof (f_equal dh_tables D2') as E6.
  cbn [dh_page_size dh_num dh_next dh_unknown dh_seq dh_tables] in EN, E1, E2, E4, E5, E6. clear D2'. split; [|split; [clear - EN; lia|]].
  - unfold ps, ps' in E1. destruct h as [x1 x2 x3 x4 x5 x6], h' as [y1 y2 y3 y4 y5 y6]. cbn [dh_page_size dh_num dh_next dh_unknown dh_seq dh_tables] in *. congruence.
  - intros k rows rows' (i & t & q & T1 & T2 & T3 & ->) (i' & t' & q' & T1' & T2' & T3' & ->). pose proof (HS k i t q T1 T2 T3) as S. pose proof (HS' k i' t' q' T1' T2' T3') as S'. clear - S S'.
    destruct S as (d & rows & E & R & F). destruct S' as (d' & rows' & E' & R' & F'). assert (d' = d) as -> by congruence. assert (rows' = rows) as -> by congruence.
    clear - F F'. revert F'. generalize (flat_map planned q'). induction F as [|x y l l' S _ IH]; intros m F'; [inversion F'; subst; constructor|]. inversion F' as [|x' y' m' m2 S' F2]; subst.
    constructor; [|now apply IH]. apply (same_values_trans _ y); [exact S|now apply same_values_sym].
Qed.
Print Assumptions c127_distinct.

(** ** Example: two keys, no genre, and space reserved for an artist *)
Definition c127_content_example : contents := [(KKey, [(11, Some c18_new); (12, Some c18_new)]); (KGenre, []); (KArtist, [(8, None)])].
Example c127_example_hyp : contents_ok Debug DbPlain 198 c127_content_example /\ 28 + 16 * len c127_content_example <= 198 /\ 1 + room c127_content_example < 2 ^ 32 /\ rows_print (flat_map (fun x => rows_in_ops (snd x)) c127_content_example).
Proof.
  split; [|split; [vm_compute; discriminate|split; [reflexivity|]]].
  - split; [repeat constructor; cbn; intuition discriminate|]. assert (forall n, 11 <= n -> n <= 65528 -> op_fine Debug (PT KKey) (n, Some c18_new)) as HO.
    { intros n Hn H2. split; [split; [exact H2|]|eexists; vm_compute; reflexivity]. cbn [fst snd]; split; [lia|]. split; [|split; [reflexivity|]].
      - split; [|exact I]. repeat constructor; cbn; repeat split; repeat constructor; try easy.
      - apply (row_fits_mono _ _ 11); [|pose proof (up4_mod n); lia]. eapply (row_size_fits Debug (fun _ => True)); [repeat constructor|exact I|eexists _, _; split; reflexivity]. }
    repeat (apply Forall_cons || apply Forall_nil); cbn [fst snd]; (split; [cbn; auto 20|]); repeat (apply Forall_cons || apply Forall_nil).
    + split; [now apply HO|vm_compute; discriminate].
    + split; [now apply HO|vm_compute; discriminate].
    + split; [now split|vm_compute; discriminate].
  - assert (forall s, In s (row_strings c18_new) -> text_prints s) as H. { intros s HS. apply prints_text. revert s HS. apply row_panics. vm_compute. reflexivity. }
    intros r s HR HS. cbn in HR. destruct HR as [<-|[<-|[]]]; now apply H.
Qed.
Example c127_example : exists io evs, shown Debug DbPlain KKey io [c18_new; c18_new] /\ shown Debug DbPlain KGenre io [] /\ dump_pdb Debug io DbPlain false = Some (evs, DOk tt) /\ rows_shown evs = map content_of [c18_new; c18_new].
Proof.
  destruct c127_example_hyp as (H1 & H2 & H3 & H4). destruct (c127_content Debug DbPlain 198 c127_content_example) as (h & plans & io & _ & S & D); [easy|easy|exact H2|exact H3|exact H1|]. destruct (D H4) as (evs & D1 & _ & D2 & _).
  exists io, evs. split; [exact (S KKey _ (or_introl eq_refl))|]. split; [exact (S KGenre _ (or_intror (or_introl eq_refl)))|]. now split.
Qed.
(** The rows of the example of C125, without the last node. *)
Definition c127_lists : contents := Eval cbn [c125_plans map pl_ops pl_type] in
  flat_map (fun p => match pl_type p with PT k => [(k, pl_ops p)] | _ => [] end) (firstn 4 c125_plans).
Example c127_example_listing : contents_ok Debug DbPlain 600 c127_lists /\ 28 + 16 * len c127_lists <= 600 /\ 1 + room c127_lists < 2 ^ 32 /\
  exists On Oa Ot Oe, In (KPlaylistTreeNode, On) c127_lists /\ In (KArtist, Oa) c127_lists /\ In (KTrack, Ot) c127_lists /\ In (KPlaylistEntry, Oe) c127_lists /\ len (rows_in_ops On) = 2 /\ len (rows_in_ops Oe) = 3.
Proof.
  split; [|split; [vm_compute; discriminate|split; [reflexivity|]]].
  - split; [repeat constructor; cbn; intuition discriminate|]. pose proof c125_plans_ok as H. unfold c125_plans in H. inversion H as [|? ? (_ & _ & H1 & _) H']; subst. inversion H' as [|? ? (_ & _ & H2 & _) H'']; subst.
    inversion H'' as [|? ? (_ & _ & H3 & _) H3']; subst. inversion H3' as [|? ? (_ & _ & H4 & _) _]; subst. cbn [pl_type pl_ops] in H1, H2, H3, H4.
    assert (forall (Q R : N * option row -> Prop) l, Forall Q l -> Forall R l -> Forall (fun x => Q x /\ R x) l) as HB by (intros Q R l F1 F2; rewrite Forall_forall in *; auto).
    constructor; [|constructor; [|constructor; [|constructor; [|constructor]]]]; (split; [cbn; auto 20|]); cbn [fst snd]; (apply HB; [assumption|]); repeat (apply Forall_cons || apply Forall_nil); vm_compute; discriminate.
  - eexists _, _, _, _. split; [left; reflexivity|]. split; [right; right; right; left; reflexivity|]. split; [right; right; left; reflexivity|]. split; [right; left; reflexivity|]. split; reflexivity.
Qed.
(** Another program with the same bytes as the one of C124: another size that is rounded up to the same. *)
Definition c127_plans : list plan := [mk_plan (PT KKey) 3 [(12, Some c18_new); (12, Some c18_new)]; mk_plan (PT KGenre) 8 []; mk_plan (PT KKey) 9 [(8, None); (20, Some c18_new)]].
Example c127_example_distinct : c127_plans <> c124_plans /\ Forall (plan_ok Debug DbPlain 198) c127_plans /\ makes Debug DbPlain c124_hdr c127_plans c124_io.
Proof.
  split; [discriminate|]. split.
  - destruct c124_example_hyp as (_ & H & _). unfold c124_plans in H. inversion H as [|? ? (A1 & A2 & A3 & A4) H']; subst. cbn [pl_ops pl_type] in A3. constructor; [|exact H']. split; [exact A1|]. split; [exact A2|].
    split; [|vm_compute; discriminate]. cbn [pl_ops pl_type]. inversion A3 as [|? ? _ B]; subst. inversion B as [|? ? C _]; subst. constructor; [exact C|constructor; [exact C|constructor]].
  - exists c124_pages. split; [repeat (apply filled_cons; [vm_compute; reflexivity|]); apply filled_nil|]. eexists _, _, _, _, _. split; [vm_compute; reflexivity|]. split; [vm_compute; reflexivity|]. split; [vm_compute; reflexivity|]. split; [vm_compute; reflexivity|]. vm_compute. reflexivity.
Qed.
