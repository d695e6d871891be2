(** * C84: Changing one row, in particular its strings *)
From Coq Require Import NArith ZArith List Bool Lia.
From Coq Require Import ZifyBool ZifyNat ZifyN.
From Verif Require Import Base BaseFacts Segs Str StrFacts StrGood Schema SchemaFacts Oa OaFacts OaSpec Rows RowFacts RowSpec Page BitFacts PageFacts PageRw PageSpec IndexSpec Alloc AllocFacts AllocSpec Db DbFacts DbFlush DbFresh Reread Progress Insert Session Delete Revise PropAlloc PropSession PropRevise.
Import ListNotations.
Open Scope N_scope.
Ltac Zify.zify_post_hook ::= Z.div_mod_to_equations.

(** ** Spec *)
(** A program that changes row number [i] of a page only. *)
Definition keep : change := fun vs ds => mk_fill vs ds false.
Definition only (i : N) (f : change) : N -> change := fun m => if m =? i then f else keep.
(** Replacing the string number [n]; the offsets stay or are calculated anew. *)
Definition set_string (n : nat) (d : dstr) (calc : bool) : change := fun vs ds => mk_fill vs (set_nth n d ds) calc.

(** ** Facts *)
Lemma set_nth_length {X} n (x : X) l : length (set_nth n x l) = length l.
Proof. pose proof (len_set_nth n x l) as H. unfold len in H. lia. Qed.
Lemma same_sym r r' : same_values r r' -> same_values r' r.
Proof. apply same_values_sym. Qed.
Lemma modest_rows_nth b f : forall rows m, (forall n r, nth_error rows n = Some r -> modest b (f (m + N.of_nat n)) r) -> modest_rows b f m rows.
Proof.
  induction rows as [|r rows IH]; intros m H; [exact I|]. split; [specialize (H 0%nat r eq_refl); now rewrite N.add_0_r in H|]. apply IH. intros n x E. specialize (H (S n) x E). now replace (m + 1 + N.of_nat n) with (m + N.of_nat (S n)) by lia.
Qed.
Definition changed (f : change) (r : row) : row :=
  match r with
  | RRow k vs oc => let x := f vs (strings oc) in RRow k (fl_vals x) (match oc with Some c => Some (mk_oarr (if fl_calc x then None else oa_offs c) (fl_strs x)) | None => None end)
  | RUnknown => RUnknown
  end.
Lemma revised_only i f : forall rows m, i < m \/ m + len rows <= i -> revised (only i f) m rows = rows.
Proof.
  induction rows as [|r rows IH]; intros m H; [easy|]. rewrite len_cons in H. assert (only i f m = keep) as E by (unfold only; now replace (m =? i) with false by lia).
  assert (revised (only i f) (m + 1) rows = rows) as HR by (apply IH; lia).
  destruct r as [k vs [[o items]|]|]; cbn [revised]; rewrite ?E, HR; reflexivity.
Qed.
Lemma revised_one f a r z : revised (only (len a) f) 0 (a ++ r :: z) = a ++ changed f r :: z.
Proof.
  rewrite revised_app, (revised_only (len a) f a 0), N.add_0_l by lia. f_equal. assert (only (len a) f (len a) = f) as E by (unfold only; now rewrite N.eqb_refl).
  assert (revised (only (len a) f) (len a + 1) z = z) as HZ by (apply revised_only; lia). destruct r; cbn [revised changed]; now rewrite ?E, HZ.
Qed.
Lemma path_split A last : forall l1 n j l2, path A last n (l1 ++ j :: l2) -> ~ In j l1 /\ ~ In j l2.
Proof.
  induction l1 as [|x l1 IH]; intros n j l2 H; cbn [app] in H.
  - split; [easy|]. inversion H as [s E|? s l NE E HI HP]; subst; [easy|]. apply path_ge in HP. rewrite Forall_forall in HP. intro HX. apply HP in HX. lia.
  - inversion H as [s E H1 H2|? s l NE E HI HP]; subst; [now destruct l1|]. destruct (IH _ _ _ HP) as [I1 I2]. split; [|easy]. intros [->|HX]; [|easy]. apply path_ge in HP. rewrite Forall_forall in HP.
    assert (In j (l1 ++ j :: l2)) as HJ by (apply in_or_app; right; now left). apply HP in HJ. lia.
Qed.
Lemma Forall2_mid {X Y} (R : X -> Y -> Prop) a x z l : Forall2 R (a ++ x :: z) l -> exists a' x' z', l = a' ++ x' :: z' /\ Forall2 R a a' /\ R x x' /\ Forall2 R z z' /\ length a' = length a.
Proof.
  intro H. apply Forall2_app_inv_l in H as (a' & l' & H1 & H2 & ->). inversion H2 as [|? x' ? z' H3 H4]; subst. exists a', x', z'. repeat (split; [easy|]). apply Forall2_len in H1. unfold len in H1. lia.
Qed.
Lemma Forall2_both {X} (R : X -> X -> Prop) : (forall x y, R x y -> R y x) -> (forall x y z, R x y -> R y z -> R x z) -> forall l a c, Forall2 R l a -> Forall2 R l c -> Forall2 R a c.
Proof.
  intros HS HT l a c H. revert c. induction H as [|x y l a H1 _ IH]; intros c HC; inversion HC as [|? z ? c0 H2 H3]; subst; constructor; [|now apply IH]. now apply (HT y x z); [apply HS|].
Qed.
Lemma same_trans r r' r'' : same_values r r' -> same_values r' r'' -> same_values r r''.
Proof. destruct r, r', r''; cbn [same_values]; try easy. intros (-> & -> & ->) (-> & -> & ->). easy. Qed.

Lemma modest_one b d G A j s a kr vs oc z f : stores b d G A -> A j = Some s -> G j <> GAny -> sh_rows s = a ++ RRow kr vs oc :: z -> modest b f (RRow kr vs oc) -> modest_rows b (only (len a) f) 0 (sh_rows s).
Proof.
  intros HST EA HG ER HM. destruct (proj2 (proj2 HST) j s EA) as (q & HPO & _). destruct (stores_sound b d G A j s q HST EA HG HPO) as (S1 & S2 & _ & S4). apply modest_rows_nth. intros n x EX. rewrite N.add_0_l. unfold only. destruct (N.of_nat n =? len a) eqn:EN.
    - assert (n = length a) as -> by (unfold len in EN; lia). rewrite ER, nth_error_app2, Nat.sub_diag in EX by lia. now injection EX as <-.
    - destruct S4 as (_ & _ & _ & _ & S5). assert (exists y, In y (rows_of_page q) /\ same_values x y) as (y & HY & HXY).
      { clear - S5 EX. revert n EX. induction S5 as [|x0 y0 l l' H1 _ IH]; intros n EX; [now destruct n|]. destruct n as [|n]; [injection EX as <-; exists y0; split; [now left|easy]|]. destruct (IH n EX) as (y & H2 & H3). exists y. split; [now right|easy]. }
      apply (modest_same b keep y); [now apply same_sym|]. unfold rows_of_page in HY. destruct q as [h [c|c]]; cbn [pg_content] in HY; [|easy]. apply in_map_iff in HY as ([o y0] & <- & HY). cbn [snd].
      unfold page_consistent in S1. unfold page_writes in S2. cbn [pg_content pg_header] in S1, S2. destruct S1 as [(_ & _ & _ & _ & _ & _ & _ & _ & _ & _ & S1) _]. rewrite Forall_forall in S1, S2. specialize (S1 _ HY). specialize (S2 _ HY). cbn [snd] in *.
      now apply c78_same.
Qed.

(** ** Theorems *)
(** A program opens the file, loads page [j], changes its row number [i] and saves.  Then the row iterator shows the table of that page with the new row; all rows in front of
    it and behind it are as before. *)
Theorem c84_row : forall b k io d G A io' j s a kr vs oc z f,
  bytes_ok io -> len io < 2 ^ 64 - 1 -> db_open io k = DOk d -> 28 + 16 * len (dh_tables (db_header d)) <= dh_page_size (db_header d) ->
  (forall i s, A i = Some s -> exists p, good_page b d (G i) i p /\ like s p) ->
  A j = Some s -> G j <> GAny -> sh_rows s = a ++ RRow kr vs oc :: z -> modest b f (RRow kr vs oc) ->
  program b k io [AAssign j (only (len a) f)] io' ->
  exists d', db_open io' k = DOk d' /\ db_header d' = db_header d /\
    forall r i t l1 l2, find_table (PT r) (db_header d) = Some (i, t) -> path A (tb_last t) (tb_first t) (l1 ++ j :: l2) ->
      forallb (is_variant r) (flat_map (shelf_rows A) (l1 ++ j :: l2)) = true ->
      exists u u' y y' oc0 oc1, let x := f vs (strings oc) in
        snd (iter_rows b r d) = Some (DOk (u ++ RRow kr vs oc0 :: y)) /\ snd (iter_rows b r d') = Some (DOk (u' ++ RRow kr (fl_vals x) oc1 :: y')) /\
        length u = (length (flat_map (shelf_rows A) l1) + length a)%nat /\
        Forall2 same_values u u' /\ Forall2 same_values y y' /\ strings oc0 = strings oc /\ (oc <> None -> strings oc1 = fl_strs x).
Proof.
  intros b k io d G A io' j s a kr vs oc z f HB HL HO HP HA EA HG ER HM HPR. pose proof (open_stores b io k d G A HB HL HO HP HA) as HST.
  pose proof (modest_one b d G A j s a kr vs oc z f HST EA HG ER HM) as HMR.
  assert (acts_ok b (db_header d) G (fun _ => []) A [AAssign j (only (len a) f)]) as HAO by (cbn [acts_ok act_ok]; split; [now exists s|exact I]).
  destruct (program_stores b k io _ io' d G (fun _ => []) A HO HST HAO HPR) as (d' & D1 & D2 & D3).
  exists d'. split; [easy|]. split; [easy|]. intros r i t l1 l2 HT HPA HV. cbn [acts_work fold_left act_work] in D3. rewrite EA in D3.
  destruct (path_split _ _ _ _ _ _ HPA) as [N1 N2]. set (A' := put A j (revise (only (len a) f) 0 s)) in *.
  assert (flat_map (shelf_rows A) (l1 ++ j :: l2) = (flat_map (shelf_rows A) l1 ++ a) ++ RRow kr vs oc :: (z ++ flat_map (shelf_rows A) l2)) as F1.
  { rewrite flat_map_app. cbn [flat_map]. unfold shelf_rows at 2. rewrite EA, ER, <- !app_assoc. reflexivity. }
  assert (flat_map (shelf_rows A') (l1 ++ j :: l2) = (flat_map (shelf_rows A) l1 ++ a) ++ changed f (RRow kr vs oc) :: (z ++ flat_map (shelf_rows A) l2)) as F2.
  { unfold A'. rewrite flat_map_app. cbn [flat_map]. rewrite !put_rows by easy. unfold shelf_rows at 2. unfold put. rewrite N.eqb_refl. cbn [revise sh_rows]. rewrite ER, revised_one, <- !app_assoc. reflexivity. }
  assert (forallb (is_variant r) (flat_map (shelf_rows A') (l1 ++ j :: l2)) = true) as HV'.
  { rewrite F2. rewrite F1 in HV. rewrite forallb_app in *. cbn [forallb] in *. exact HV. }
  destruct (stores_rows b d G A r i t _ HST HT HPA HV) as (rows & R1 & R2). rewrite <- D2 in HT.
  destruct (stores_rows b d' G A' r i t (l1 ++ j :: l2) D3 HT ltac:(now apply path_put) HV') as (rows' & R1' & R2').
  rewrite F1 in R2. rewrite F2 in R2'. apply Forall2_mid in R2 as (u & x0 & y & -> & Q1 & Q2 & Q3 & Q4). apply Forall2_mid in R2' as (u' & x1 & y' & -> & Q1' & Q2' & Q3' & Q4').
  destruct x0 as [k0 vs0 oc0|]; [|easy]. destruct Q2 as (-> & -> & E0). destruct x1 as [k1 vs1 oc1|]; [|easy]. cbn [changed same_values] in Q2'. destruct Q2' as (-> & -> & E1).
  exists u, u', y, y', oc0, oc1. split; [exact R1|]. split; [exact R1'|]. split; [now rewrite Q4, app_length|].
  split; [now apply (Forall2_both same_values same_sym same_trans _ _ _ Q1)|]. split; [now apply (Forall2_both same_values same_sym same_trans _ _ _ Q3)|]. split.
  - destruct oc as [c|], oc0 as [c0|]; try easy. cbn [option_map] in E0. injection E0 as E0. exact E0.
  - intro HN. destruct oc as [c|]; [|easy]. destruct oc1 as [c1|]; [|easy]. cbn [option_map oa_items] in E1. injection E1 as E1. exact E1.
Qed.
Print Assumptions c84_row.

(** Strings can be replaced by ones that take no more bytes, if these do not ask for an alignment that the old ones did not need. *)
Lemma calc_body_mono b : forall ds ds', Forall2 (fun d d' => (exists y y', dstr_enc b d = Ok y /\ dstr_enc b d' = Ok y' /\ len y' <= len y) /\ start_multiple d' <= start_multiple d) ds ds' ->
  forall cur cur' os body, cur' <= cur -> calc_body b cur ds = Ok (os, body) -> exists os' body', calc_body b cur' ds' = Ok (os', body') /\ Forall2 N.le os' os /\ cur' + len body' <= cur + len body.
Proof.
  intros ds ds' H. induction H as [|d d' ds ds' [(y & y' & E & E' & HL) HM] _ IH]; intros cur cur' os body HC HB; [cbn in *; injection HB as <- <-; exists [], []; repeat split; [constructor|cbn; lia]|].
  cbn [calc_body] in *. rewrite E in HB. rewrite E'. cbn [res_bind] in *. assert (aligned_offset cur' (dstr_align d') <= aligned_offset cur (dstr_align d)) as HA.
  { unfold aligned_offset, next_mult. destruct d, d'; cbn [start_multiple dstr_align] in *; try lia; change (N.max 1 1) with 1; change (N.max 4 1) with 4; rewrite ?N.div_1_r, ?N.mul_1_r; lia. }
  pose proof (aligned_ge cur d). pose proof (aligned_ge cur' d').
  destruct (calc_body b (aligned_offset cur (dstr_align d) + len y) ds) as [[os0 z]| |] eqn:EB; try easy. cbn [res_bind] in HB. injection HB as <- <-.
  destruct (IH (aligned_offset cur (dstr_align d) + len y) (aligned_offset cur' (dstr_align d') + len y') os0 z ltac:(lia) EB) as (os' & z' & E2 & F2 & L2). rewrite E2. cbn [res_bind]. eexists _, _. split; [reflexivity|]. split; [now constructor|].
  rewrite !len_app, !len_zeros. lia.
Qed.
Theorem c84_string : forall b k vs c n d d' y y', row_ok dstr_good (RRow k vs (Some c)) -> row_writes b (RRow k vs (Some c)) ->
  nth_error (oa_items c) n = Some d -> dstr_good d' -> dstr_enc b d = Ok y -> dstr_enc b d' = Ok y' -> len y' <= len y -> start_multiple d' <= start_multiple d ->
  modest b (set_string n d' false) (RRow k vs (Some c)).
Proof.
  intros b k vs c n d d' y y' HR HW HN HD E E' HL HM. pose proof (writes_items b k vs c HR HW) as HI. pose proof HW as HW0. apply writes_fields in HW0 as [bs EB]. pose proof HR as [HV HO]. cbn [modest set_string fl_vals fl_strs fl_calc strings].
  assert (Forall2 (fun d d' => (exists y y', dstr_enc b d = Ok y /\ dstr_enc b d' = Ok y' /\ len y' <= len y) /\ start_multiple d' <= start_multiple d) (oa_items c) (set_nth n d' (oa_items c))) as HF.
  { clear - HN HI E E' HL HM. revert n HN. induction HI as [|x l [z EZ] HI IH]; intros n HN; [now destruct n|]. destruct n as [|n].
    - injection HN as ->. cbn [set_nth]. constructor; [split; [now exists y, y'|easy]|]. clear - HI. induction HI as [|x l [z EZ] _ IH]; constructor; [|easy]. split; [exists z, z; repeat (split; [easy|]); lia|lia].
    - cbn [set_nth]. constructor; [split; [exists z, z; repeat (split; [easy|]); lia|lia]|]. now apply IH. }
  destruct (row_oarr k) as [[off m]|] eqn:EK; [|easy]. destruct HO as (O1 & O2 & O3).
  assert (Forall dstr_good (set_nth n d' (oa_items c))) as HG.
  { clear - O2 HD. revert n. induction O2 as [|x l H1 H2 IH]; intro n; [destruct n; constructor|]. destruct n; cbn [set_nth]; constructor; try easy. }
  split; [easy|]. split; [now rewrite set_nth_length|]. split; [easy|]. split; [easy|]. split; [eapply Forall2_imp; [|exact HF]; now intros ? ? []|].
  intros q HQ.
  assert (forall ds, length ds = m -> Forall dstr_good ds -> row_ok dstr_good (RRow k vs (Some (mk_oarr None ds)))) as HB by (intros ds HL1 HD1; cbn [row_ok]; rewrite EK; now split).
  apply (row_size_enc b dstr_good) in HQ as (x & HE & <-); [|now apply HB|easy]. cbn [row_enc oa_items] in HE. rewrite EB, EK in HE. cbn [res_bind] in HE. unfold oarr_enc in HE.
  destruct (calc_body b (off + (len (oa_items c) + 1) * os_bytes (row_osize vs)) (oa_items c)) as [[os body]| |] eqn:EC; try easy. cbn [res_bind] in HE. unfold offs_new in HE. destruct (forallb (fun o => o <? 256 ^ os_bytes (row_osize vs)) os) eqn:EF; try easy.
  cbn [res_bind] in HE. apply Ok_inj in HE. subst x. destruct (calc_body_mono b _ _ HF _ _ os body (N.le_refl _) EC) as (os' & body' & EC' & FL & LB).
  assert (len (set_nth n d' (oa_items c)) = len (oa_items c)) as LS by (unfold len; now rewrite set_nth_length).
  assert (forallb (fun o => o <? 256 ^ os_bytes (row_osize vs)) os' = true) as EF'.
  { clear - FL EF. induction FL as [|o' o os' os H1 _ IH]; [easy|]. cbn [forallb] in *. apply andb_true_iff in EF as [E1 E2]. rewrite IH by easy. lia. }
  exists (len (bs ++ offs_enc (mk_offs (row_osize vs) os') ++ body')). split.
  - apply (row_size_enc b dstr_good); [apply HB; [now rewrite set_nth_length|easy]|easy|]. eexists. split; [|reflexivity]. cbn [row_enc oa_items]. rewrite EB, EK. cbn [res_bind]. unfold oarr_enc. rewrite LS, EC'. cbn [res_bind]. unfold offs_new. rewrite EF'. reflexivity.
  - rewrite !len_app, !len_offs_enc. cbn [of_list of_size]. apply Forall2_len in FL. rewrite FL. lia.
Qed.
Print Assumptions c84_string.

(** ** Example: a page with two tags; the strings of the first one start at 31 and 36, there is no gap between them. *)
Definition c84_vals (id : N) : list fval := [VInt 0x680; VInt 0; VInt 0; VInt 0; VInt 0; VInt 0; VInt id; VInt 0].
Definition c84_tag (id : N) (c : bool) (s t : list N) : row :=
  RRow KTag (c84_vals id) (Some (mk_oarr (if c then None else Some (mk_offs OS8 [31; 32 + len s])) [DSShort s; DSShort t])).
Definition c84_content (c : bool) : dcontent := mk_dcontent [VInt 1; VInt 0; VInt 0; VInt 0] [mk_rgroup (repeat 0 14 ++ [40; 0]) 3 0] [(0, c84_tag 1 c [65; 66; 67; 68] [69]); (40, c84_tag 2 c [70; 71] [])].
Definition c84_header : phdr := mk_phdr 1 (PT KTag) 9 1 0 (mk_counts 2 2) 0x24 68 80.
Definition c84_hdr : dbhdr := mk_dbhdr 198 1 2 0 7 [mk_table (PT KTag) 9 1 1].
Definition c84_io : list N := Eval vm_compute in match flush Debug (mk_db (repeat 0 396) DbExt c84_hdr [Some (mk_page c84_header (PData (c84_content true)))]) with DOk d => db_io d | _ => [] end.
Definition c84_page : page := mk_page c84_header (PData (c84_content false)).
Definition c84_open : database := mk_db c84_io DbExt c84_hdr [None].
Definition c84_rows : list row := [c84_tag 1 false [65; 66; 67; 68] [69]; c84_tag 2 false [70; 71] []].
Definition c84_shelves : shelves := fun i => if i =? 1 then Some (mk_shelf (PT KTag) 9 68 2 c84_rows) else None.
Lemma c84_fits id s t n x y z : enc_fields Debug (row_fields KTag) (c84_vals id) = Ok x -> len x = 28 -> dstr_enc Debug (DSShort s) = Ok y -> dstr_enc Debug (DSShort t) = Ok z -> len y = 1 + len s -> 31 + len y + len z <= n -> row_fits Debug (c84_tag id false s t) n.
Proof.
  intros EX LX EY EZ LY HN pos l r' p H. unfold c84_tag, row_segs in H. remember (32 + len s) as o2 eqn:E2 in H. rewrite EX in H. cbn [res_bind row_oarr] in H. unfold oarr_segs, calculate_base in H. replace (0x1C <=? pos + len x) with true in H by lia.
  cbn [res_bind oa_offs oa_items of_size] in H. change (osize_eqb OS8 (row_osize (c84_vals id))) with true in H. cbn [items_segs of_list] in H. rewrite EY, EZ in H. cbn [res_bind] in H. injection H as <- <- <-.
  assert (len (offs_enc (mk_offs OS8 [31; o2])) = 3) as LO by (rewrite len_offs_enc; reflexivity). cbn [segs_disj]. unfold segs_within, seg_disj, seg_end.
  repeat match goal with |- _ /\ _ => split | |- Forall _ [] => apply Forall_nil | |- Forall _ (_ :: _) => apply Forall_cons | |- True => exact I end; cbn [fst snd]; rewrite ?LX, ?LO, ?LY; lia.
Qed.
Lemma c84_row_ok id c s t : id < 2 ^ 32 -> dstr_good (DSShort s) -> dstr_good (DSShort t) -> len s < 200 -> row_ok dstr_good (c84_tag id c s t).
Proof.
  intros HI HS HT HL. split; [repeat constructor; cbn; lia|]. cbn [row_oarr]. split; [reflexivity|]. split; [apply Forall_cons; [exact HS|]; apply Forall_cons; [exact HT|]; apply Forall_nil|]. destruct c; cbn [oa_offs]; [exact I|]. split; [reflexivity|]. split; [reflexivity|]. cbn [of_list]. apply Forall_cons; [reflexivity|]. apply Forall_cons; [|apply Forall_nil]. change (256 ^ os_bytes (row_osize (c84_vals id))) with 256; lia.
Qed.
Lemma c84_short l : forallb (fun x => x <? 128) l = true -> len l < 127 -> dstr_good (DSShort l).
Proof. intros H HL. split; [|split; [intros v [=]|exact I]]. split; [lia|]. apply Forall_forall. intros x Hx. rewrite forallb_forall in H. specialize (H x Hx). lia. Qed.
Lemma c84_consistent : page_consistent Debug DbExt 198 c84_page.
Proof.
  unfold page_consistent. cbn [c84_page pg_content pg_header]. split.
  - unfold dpage_ok. split; [easy|]. split; [easy|]. split; [repeat split; cbn; auto 20|]. split; [reflexivity|]. split; [repeat constructor|]. split; [reflexivity|]. split; [repeat constructor|]. split; [repeat constructor|]. split; [reflexivity|]. split; [reflexivity|].
    constructor; [|constructor; [|constructor]]; (split; [|reflexivity]); cbn [snd]; apply c84_row_ok; try reflexivity; now apply c84_short.
  - split; [vm_compute; discriminate|]. split; [easy|]. cbn [tidy c84_content dc_rows].
    split; [easy|]. exists 38. split; [eapply c84_fits; try (vm_compute; reflexivity); vm_compute; discriminate|]. split; [easy|]. exists 35. split; [eapply c84_fits; try (vm_compute; reflexivity); vm_compute; discriminate|]. vm_compute. discriminate.
Qed.
Example c84_example_hyp : bytes_ok c84_io /\ db_open c84_io DbExt = DOk c84_open /\ (forall i s, c84_shelves i = Some s -> exists p, good_page Debug c84_open GSound i p /\ like s p) /\ path c84_shelves 1 1 ([] ++ 1 :: []).
Proof.
  split; [|split; [vm_compute; reflexivity|split]].
  - apply Forall_forall. intros x Hx. assert (forallb (fun x => x <? 256) c84_io = true) as E by (vm_compute; reflexivity). rewrite forallb_forall in E. specialize (E x Hx). cbv beta in E. lia.
  - intros i s H. unfold c84_shelves in H. destruct (i =? 1) eqn:E; [|easy]. assert (i = 1) as -> by lia. injection H as <-. exists c84_page. split.
    + unfold good_page. cbn [c84_open db_header db_kind dh_page_size dh_next c84_hdr db_io]. split; [lia|]. split; [lia|]. split; [exact c84_consistent|]. split; [|split; [easy|eexists; vm_compute; reflexivity]].
      unfold page_writes. cbn [c84_page pg_content c84_content dc_rows]. constructor; [|constructor; [|constructor]]; (eexists; vm_compute; reflexivity).
    + split; [reflexivity|]. split; [reflexivity|]. split; [reflexivity|]. split; [reflexivity|]. cbn. repeat constructor.
  - now apply (path_last _ 1 (mk_shelf (PT KTag) 9 68 2 c84_rows)).
Qed.
Lemma c84_tag1 : row_ok dstr_good (c84_tag 1 false [65; 66; 67; 68] [69]) /\ row_writes Debug (c84_tag 1 false [65; 66; 67; 68] [69]).
Proof. split; [apply c84_row_ok; try reflexivity; now apply c84_short|]. eexists. vm_compute. reflexivity. Qed.
(** A shorter name at the same place; or other names, for which the row is laid out anew. *)
Definition c84_relaid : change := fun vs ds => mk_fill vs [DSShort [90]; DSShort [69; 70; 71; 72]] true.
Example c84_example_modest : modest Debug (set_string 0 (DSShort [90; 91]) false) (c84_tag 1 false [65; 66; 67; 68] [69]) /\ modest Debug c84_relaid (c84_tag 1 false [65; 66; 67; 68] [69]).
Proof.
  destruct c84_tag1 as [H1 H2]. split.
  - apply (c84_string Debug KTag _ _ 0 (DSShort [65; 66; 67; 68]) (DSShort [90; 91]) [11; 65; 66; 67; 68] [7; 90; 91]); try easy. now apply c84_short.
  - cbn [c84_tag modest c84_relaid fl_vals fl_strs fl_calc strings oa_items]. split; [apply H1|]. split; [reflexivity|]. split; [repeat (apply Forall_cons; [now apply c84_short|]); apply Forall_nil|].
    exists 38, 38. split; [|split; [|lia]].
    + eexists _, [[11; 65; 66; 67; 68]; [5; 69]]. split; [vm_compute; reflexivity|]. split; [repeat constructor|]. vm_compute. reflexivity.
    + eexists _, _. split; [vm_compute; reflexivity|]. vm_compute. reflexivity.
Qed.
Definition c84_run (f : change) : list N :=
  let '(d1, r) := load_page Debug c84_open 1 in
  match r with DOk p => match flush Debug (set_page d1 1 (assign_page (only 0 f) 0 p)) with DOk d2 => db_io d2 | _ => [] end | _ => [] end.
Lemma c84_runs f : (exists d, flush Debug (set_page (fst (load_page Debug c84_open 1)) 1 (assign_page (only 0 f) 0 c84_page)) = DOk d) -> program Debug DbExt c84_io [AAssign 1 (only 0 f)] (c84_run f).
Proof.
  intros [d HD]. assert (load_page Debug c84_open 1 = (fst (load_page Debug c84_open 1), DOk c84_page)) as HL by (vm_compute; reflexivity).
  exists c84_open, (set_page (fst (load_page Debug c84_open 1)) 1 (assign_page (only 0 f) 0 c84_page)), d. split; [apply c84_example_hyp|]. split; [|split; [exact HD|]].
  - eapply acts_cons; [|apply acts_nil]. apply (does_assign Debug c84_open 1 (only 0 f) _ c84_page HL).
  - unfold c84_run. rewrite HL. now rewrite HD.
Qed.
Example c84_example : forall f rows, (f = set_string 0 (DSShort [90; 91]) false /\ rows = [RRow KTag (c84_vals 1) (Some (mk_oarr (Some (mk_offs OS8 [31; 36])) [DSShort [90; 91]; DSShort [69]])); c84_tag 2 false [70; 71] []]) \/
    (f = c84_relaid /\ rows = [RRow KTag (c84_vals 1) (Some (mk_oarr (Some (mk_offs OS8 [31; 33])) [DSShort [90]; DSShort [69; 70; 71; 72]])); c84_tag 2 false [70; 71] []]) ->
  program Debug DbExt c84_io [AAssign 1 (only 0 f)] (c84_run f) /\ exists d, db_open (c84_run f) DbExt = DOk d /\ snd (iter_rows Debug KTag d) = Some (DOk rows).
Proof.
  intros f rows [[-> ->]|[-> ->]]; (split; [apply c84_runs; eexists; vm_compute; reflexivity|]); (eexists; split; [vm_compute; reflexivity|]); vm_compute; reflexivity.
Qed.
(** Nothing checks the size of the new string.  The row has two more bytes of its own; a name that is longer by two runs without an error, but is overwritten by the second string
    of the same row, since rows that were read keep their offsets; another name is read then.  The program that resets the offsets as well gets the name back. *)
Definition c84_long : dstr := DSShort [65; 66; 67; 68; 69; 70].
Theorem c84_longer_refuted : exists io d io1 io2 d1 d2 r1 r2 k vs oc z oc1 oc2,
  db_open io DbExt = DOk d /\ snd (iter_rows Debug KTag d) = Some (DOk (RRow k vs oc :: z)) /\
  program Debug DbExt io [AAssign 1 (only 0 (set_string 0 c84_long false))] io1 /\ db_open io1 DbExt = DOk d1 /\ snd (iter_rows Debug KTag d1) = Some (DOk (r1 :: z)) /\
  r1 = RRow k vs oc1 /\ nth_error (strings oc1) 0 <> Some c84_long /\
  program Debug DbExt io [AAssign 1 (only 0 (set_string 0 c84_long true))] io2 /\ db_open io2 DbExt = DOk d2 /\ snd (iter_rows Debug KTag d2) = Some (DOk (r2 :: z)) /\
  r2 = RRow k vs oc2 /\ nth_error (strings oc2) 0 = Some c84_long /\ nth_error (strings oc2) 1 = nth_error (strings oc) 1.
Proof.
  exists c84_io, c84_open, (c84_run (set_string 0 c84_long false)), (c84_run (set_string 0 c84_long true)). eexists _, _, _, _, KTag, (c84_vals 1), _, _, _, _.
  split; [apply c84_example_hyp|]. split; [vm_compute; reflexivity|]. split; [apply c84_runs; eexists; vm_compute; reflexivity|]. split; [vm_compute; reflexivity|]. split; [vm_compute; reflexivity|]. split; [reflexivity|].
  split; [vm_compute; discriminate|]. split; [apply c84_runs; eexists; vm_compute; reflexivity|]. split; [vm_compute; reflexivity|]. split; [vm_compute; reflexivity|]. split; [reflexivity|]. split; vm_compute; reflexivity.
Qed.
Print Assumptions c84_longer_refuted.
