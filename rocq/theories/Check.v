(** * A check for files: which pages may be saved, and which may be changed
    The theorems about saving and inserting (C75 and those that build on it) speak of pages that are consistent.  Here this is decided
    by computation, for any file, and the answer is proved right in both directions. *)
From Coq Require Import NArith ZArith List Bool Lia.
From Coq Require Import ZifyBool ZifyNat ZifyN.
From Verif Require Import Base BaseFacts Segs Str StrFacts StrGood Schema SchemaFacts Oa OaFacts OaSpec Rows RowFacts RowSpec Page BitFacts PageFacts PageRw PageSpec IndexSpec Alloc AllocFacts AllocSpec Db DbFacts DbFlush DbFresh Reread Progress Insert Session.
Import ListNotations.
Open Scope N_scope.
Ltac Zify.zify_post_hook ::= Z.div_mod_to_equations.

(** ** The check *)
(** Texts: no NUL in an ISRC; a UTF-16 text is not empty and does not look like an ISRC. *)
Definition dstr_check (d : dstr) : bool :=
  match d with
  | DSIsrc v => forallb (fun x => negb (x =? 0)) v
  | DSUcs2 [] => false
  | DSUcs2 (u :: _) => negb (u mod 256 =? 3)
  | _ => true
  end.
Definition val_check (v : fval) : bool := match v with VStr d => dstr_check d | _ => true end.
Definition row_check (r : row) : bool :=
  match r with
  | RUnknown => true
  | RRow _ vs oc => forallb val_check vs && match oc with Some c => forallb dstr_check (oa_items c) | None => true end
  end.
(** Pieces that have no byte in common, and where the last one ends. *)
Definition seg_disjb (s t : seg) : bool := (seg_end s <=? fst t) || (seg_end t <=? fst s).
Fixpoint segs_disjb (l : list seg) : bool := match l with [] => true | s :: r => forallb (seg_disjb s) r && segs_disjb r end.
Fixpoint segs_end (l : list seg) : N := match l with [] => 0 | s :: r => N.max (seg_end s) (segs_end r) end.
(** The number of bytes that a row takes, if its pieces are apart. *)
Definition row_extent (b : build) (r : row) : option N :=
  match row_segs b r 0 with Ok (l, _, _) => if segs_disjb l then Some (segs_end l) else None | _ => None end.
(** The rows can be written and lie one after the other. *)
Fixpoint tidy_check (b : build) (lo : N) (rows : list (N * row)) (hi : N) : bool :=
  match rows with
  | [] => lo <=? hi
  | (o, r) :: rest => (lo <=? o) && match row_extent b r with Some n => tidy_check b (o + n) rest hi | None => false end
  end.
(** The page may be loaded and saved. *)
Definition page_check (b : build) (ps : N) (p : page) : bool :=
  match pg_content p with
  | PData c =>
    forallb (fun x => row_check (snd x)) (dc_rows c) && (36 * len (dc_groups c) <=? ps) && (footer_size (dc_groups c) + 40 <=? ps) &&
    tidy_check b 0 (dc_rows c) (ps - 40 - footer_size (dc_groups c))
  | PIndex c => (80 <=? ps) && (ps mod 4 =? 0) && (ih_num (ic_header c) <=? (ps - 80) / 4)
  end.
(** The slots of the groups from slot [s] on: only those below [n] are marked. *)
Fixpoint slots_check (s n : N) (gs : list rgroup) : bool :=
  match gs with [] => true | g :: gs' => (if s + 16 <=? n then true else rg_flags g <? 2 ^ (n - s)) && slots_check (s + 16) n gs' end.
(** Rows may be allocated and inserted as well. *)
Definition grow_check (b : build) (ps : N) (p : page) : bool :=
  let h := pg_header p in
  match pg_content p with
  | PData c =>
    (ps - 40 <? 65536) && (ph_used h + ph_free h + footer_space h =? ps - 40) && slots_check 0 (c_rows (ph_counts h)) (dc_groups c) &&
    tidy_check b 0 (dc_rows c) (ph_used h) && forallb (fun x => fst x <? ph_used h) (dc_rows c)
  | PIndex _ => false
  end.

(** ** The check is right *)
Lemma dstr_check_good d : dstr_parsed d -> (dstr_check d = true <-> dstr_good d).
Proof.
  intros [H1 H2]. unfold dstr_good. destruct d as [v|v|v|[|u us]]; cbn [dstr_check dstr_clear]; try easy.
  - split; [easy|]. intros _. apply forallb_forall. intros x Hx. specialize (H2 v eq_refl). rewrite Forall_forall in H2. specialize (H2 x Hx). lia.
  - split; [intro H; repeat split; try easy; lia|intros (_ & _ & H); lia].
Qed.
Lemma fields_check_good fs vs : fields_ok dstr_parsed fs vs -> (forallb val_check vs = true <-> fields_ok dstr_good fs vs).
Proof.
  intro H. induction H as [|f v fs vs H1 H2 IH]; [split; [constructor|easy]|]. cbn [forallb]. rewrite andb_true_iff.
  assert (val_check v = true <-> field_ok dstr_good f v) as HV.
  { destruct v as [x| |c|c|bs|d]; cbn [val_check]; try (split; [intros _; destruct f; cbn [field_ok] in *; easy|easy]). destruct f; try easy. cbn [field_ok] in *. now apply dstr_check_good. }
  rewrite HV, IH. split; [intros []; now constructor|]. intro HI. now inversion HI.
Qed.
Lemma row_check_good r : row_ok dstr_parsed r -> (row_check r = true <-> row_ok dstr_good r).
Proof.
  destruct r as [k vs oc|]; [|easy]. cbn [row_ok row_check]. intros [H1 H2]. rewrite andb_true_iff, (fields_check_good _ _ H1).
  destruct (row_oarr k) as [[off n]|], oc as [c|]; try easy. unfold oarr_ok in *. destruct H2 as (H2 & H3 & H4).
  assert (forallb dstr_check (oa_items c) = true <-> Forall dstr_good (oa_items c)) as ->; [|tauto].
  clear - H3. induction H3 as [|d l H1 H2 IH]; [split; [constructor|easy]|]. cbn [forallb]. rewrite andb_true_iff, IH, (dstr_check_good d H1). split; [intros []; now constructor|intro H; now inversion H].
Qed.

(** Where a row is written does not matter for the shape of its pieces. *)
Definition moved (pos : N) (s : seg) : seg := (pos + fst s, snd s).
Lemma items_moved b pos : forall items os l, items_segs b pos items os = Ok l -> exists l0, items_segs b 0 items os = Ok l0 /\ l = map (moved pos) l0.
Proof.
  induction items as [|d items IH]; intros os l H; cbn [items_segs] in *; [injection H as <-; now exists []|]. destruct os as [|o os]; [injection H as <-; now exists []|].
  destruct (dstr_enc b d) as [x| |]; [|easy|easy]. cbn [res_bind] in *. destruct (items_segs b pos items os) as [l2| |] eqn:E; [|easy|easy]. destruct (IH _ _ E) as (l0 & -> & ->).
  cbn [res_bind] in *. injection H as <-. exists ((0 + o, x) :: l0). now split.
Qed.
Lemma row_moved b Q r pos l r' p : row_ok Q r -> row_segs b r pos = Ok (l, r', p) -> exists l0 r0 p0, row_segs b r 0 = Ok (l0, r0, p0) /\ l = map (moved pos) l0.
Proof.
  intros HR HE. destruct r as [k vs oc|]; [|cbn in HE; injection HE as <- <- <-; now exists [], RUnknown, 0]. cbn [row_segs row_ok] in *. destruct HR as [HV HO].
  destruct (enc_fields b (row_fields k) vs) as [bs| |] eqn:E; [|easy|easy]. cbn [res_bind] in *. destruct (row_oarr k) as [[off m]|] eqn:EK, oc as [c|]; try easy.
  2:{ injection HE as <- <- <-. do 3 eexists. split; [reflexivity|]. unfold moved. cbn [map fst snd]. now rewrite N.add_0_r. }
  destruct (row_oarr_fields k off m EK) as (F1 & F2 & _). assert (len bs = off) as LB by (rewrite <- F2; now apply (fields_enc_len b Q _ vs)).
  unfold oarr_segs, calculate_base in *. replace (off <=? pos + len bs) with true in HE by lia. replace (off <=? 0 + len bs) with true by lia. cbn [res_bind] in *.
  replace (pos + len bs - off) with pos in HE by lia. replace (0 + len bs - off) with 0 by lia.
  destruct (oa_offs c) as [o|].
  - destruct (osize_eqb (of_size o) (row_osize vs)); [|easy]. destruct (items_segs b pos (oa_items c) (of_list o)) as [l2| |] eqn:EI; [|easy|easy].
    destruct (items_moved _ _ _ _ _ EI) as (l0 & -> & ->). cbn [res_bind] in *. injection HE as <- <- <-. do 3 eexists. split; [reflexivity|].
    unfold moved. cbn [map fst snd]. rewrite N.add_0_r. now replace (pos + (0 + len bs)) with (pos + len bs) by lia.
  - destruct (oarr_enc b off (row_osize vs) (oa_items c)) as [[o x]| |]; [|easy|easy]. cbn [res_bind] in *. injection HE as <- <- <-. do 3 eexists. split; [reflexivity|].
    unfold moved. cbn [map fst snd]. rewrite N.add_0_r. now replace (pos + (0 + len bs)) with (pos + len bs) by lia.
Qed.
Lemma segs_disjb_disj l : segs_disjb l = true <-> segs_disj l.
Proof.
  induction l as [|s l IH]; [easy|]. cbn [segs_disjb segs_disj]. rewrite andb_true_iff, IH, forallb_forall, Forall_forall. 
  assert (forall t, seg_disjb s t = true <-> seg_disj s t) as HD by (intro t; unfold seg_disjb, seg_disj; rewrite orb_true_iff; lia).
  split; (intros [H1 H2]; split; [|exact H2]; intros x Hx; apply HD, H1, Hx).
Qed.
Lemma moved_disj pos l : segs_disj l <-> segs_disj (map (moved pos) l).
Proof.
  induction l as [|s l IH]; [easy|]. cbn [map segs_disj]. rewrite IH, !Forall_forall.
  assert (forall t, seg_disj s t <-> seg_disj (moved pos s) (moved pos t)) as HD by (intro t; unfold seg_disj, seg_end, moved; cbn [fst snd]; lia).
  split; (intros [H1 H2]; split; [|exact H2]).
  - intros x Hx. apply in_map_iff in Hx as (y & <- & Hy). now apply HD, H1.
  - intros x Hx. apply HD, H1, in_map_iff. now exists x.
Qed.
Lemma moved_within pos n l : segs_within 0 n l <-> segs_within pos (pos + n) (map (moved pos) l).
Proof.
  unfold segs_within. rewrite Forall_map. unfold seg_end, moved. cbn [fst snd]. split; apply Forall_impl; intros; lia.
Qed.
Lemma segs_end_within n l : segs_within 0 n l <-> segs_end l <= n.
Proof.
  induction l as [|s l IH]; [split; [cbn [segs_end]; lia|constructor]|]. cbn [segs_end]. unfold segs_within in *. split.
  - intro H. inversion H as [|? ? H1 H2]; subst. apply IH in H2. lia.
  - intro H. constructor; [lia|]. apply IH. lia.
Qed.
Lemma extent_fits b Q r n : row_ok Q r -> row_extent b r = Some n -> row_writes b r /\ row_fits b r n.
Proof.
  intros HR H. unfold row_extent in H. destruct (row_segs b r 0) as [[[l r'] p]| |] eqn:E; [|easy|easy]. destruct (segs_disjb l) eqn:ED; [|easy]. injection H as <-. split; [apply writes_segs; now exists l, r', p|].
  intros pos l1 r1 p1 H1. destruct (row_moved _ _ _ _ _ _ _ HR H1) as (l0 & r0 & p0 & E0 & ->). assert (l0 = l) as -> by congruence. split; [now apply moved_disj, segs_disjb_disj|].
  now apply moved_within, segs_end_within.
Qed.
Lemma fits_extent b r n : row_writes b r -> row_fits b r n -> exists m, row_extent b r = Some m /\ m <= n.
Proof.
  intros HW HF. apply writes_segs in HW as (l & r' & p & E). destruct (HF _ _ _ _ E) as [H1 H2]. unfold row_extent. rewrite E. apply segs_disjb_disj in H1. rewrite H1. eexists. split; [reflexivity|]. now apply segs_end_within.
Qed.
Lemma tidy_check_iff b Q : forall rows lo hi, Forall (fun x => row_ok Q (snd x)) rows ->
  (tidy_check b lo rows hi = true <-> tidy b lo rows hi /\ Forall (fun x => row_writes b (snd x)) rows).
Proof.
  induction rows as [|[o r] rows IH]; intros lo hi HR; cbn [tidy_check tidy]; [split; [intro; split; [lia|constructor]|intros []; lia]|].
  inversion HR as [|? ? R1 R2]; subst. cbn [snd] in R1. rewrite andb_true_iff. split.
  - intros [H1 H2]. destruct (row_extent b r) as [n|] eqn:E; [|easy]. destruct (extent_fits _ _ _ _ R1 E) as [W F]. apply IH in H2 as [T W2]; [|easy]. split; [|now constructor]. split; [lia|]. now exists n.
  - intros [(H1 & n & HF & HT) HW]. inversion HW as [|? ? W1 W2]; subst. cbn [snd] in W1. destruct (fits_extent _ _ _ W1 HF) as (m & -> & HM). split; [lia|]. apply IH; [easy|]. split; [|easy].
    destruct rows as [|[o2 r2] rest]; cbn [tidy] in *; [lia|]. destruct HT as [HT1 HT2]. split; [lia|easy].
Qed.
Lemma flags_below f m : (forall i, N.testbit f i = true -> i < m) <-> f < 2 ^ m.
Proof.
  split.
  - intro H. destruct (N.eq_dec f 0) as [->|HF]; [apply N.neq_0_lt_0, N.pow_nonzero; lia|]. apply N.log2_lt_pow2; [lia|]. apply H. now apply N.bit_log2.
  - intros H i Hi. destruct (N.lt_ge_cases i m) as [L|L]; [easy|]. exfalso. rewrite N.bits_above_log2 in Hi; [easy|]. destruct (N.eq_dec f 0) as [->|HF]; [now rewrite N.bits_0 in Hi|]. apply N.log2_lt_pow2 in H; lia.
Qed.
Lemma u16_bits f i : is_u16 f -> N.testbit f i = true -> i < 16.
Proof. intro H. apply (flags_below f 16). exact H. Qed.
Lemma slots_check_iff n : forall gs s, Forall rgroup_ok gs ->
  (slots_check s n gs = true <-> forall k i g, getN gs k = Some g -> N.testbit (rg_flags g) i = true -> s + 16 * k + i < n).
Proof.
  induction gs as [|g gs IH]; intros s HG; [split; [intros _ k i g H|easy]; unfold getN in H; now destruct (N.to_nat k)|]. inversion HG as [|? ? G1 G2]; subst. cbn [slots_check]. rewrite andb_true_iff, (IH _ G2). split.
  - intros [H1 H2] k i g' HK HI. destruct (N.eq_dec k 0) as [->|K0].
    + cbn in HK. injection HK as <-. pose proof (u16_bits _ _ (proj1 (proj2 (proj2 G1))) HI). destruct (s + 16 <=? n) eqn:E; [lia|]. assert (i < n - s) as L by (apply (proj2 (flags_below (rg_flags g) (n - s))); [lia|easy]). lia.
    + rewrite getN_cons in HK. replace (k =? 0) with false in HK by lia. specialize (H2 _ _ _ HK HI). lia.
  - intro H. split.
    + destruct (s + 16 <=? n) eqn:E; [easy|]. apply N.ltb_lt, flags_below. intros i Hi. specialize (H 0 i g eq_refl Hi). lia.
    + intros k i g' HK HI. specialize (H (k + 1) i g'). rewrite getN_cons in H. replace (k + 1 =? 0) with false in H by lia. replace (k + 1 - 1) with k in H by lia. specialize (H HK HI). lia.
Qed.
Lemma slots_flag gs n : Forall rgroup_ok gs -> (slots_check 0 n gs = true <-> forall s, slot_flag gs s = true -> s < n).
Proof.
  intro HG. rewrite (slots_check_iff n gs 0 HG). split.
  - intros H s HS. unfold slot_flag in HS. destruct (getN gs (s / 16)) as [g|] eqn:E; [|easy]. specialize (H _ _ _ E HS). lia.
  - intros H k i g HK HI. assert (In g gs) as X by (apply in_getN; now exists k). rewrite Forall_forall in HG. pose proof (u16_bits _ _ (proj1 (proj2 (proj2 (HG g X)))) HI) as L.
    apply H. unfold slot_flag. replace ((0 + 16 * k + i) / 16) with k by lia. replace ((0 + 16 * k + i) mod 16) with i by lia. now rewrite HK.
Qed.

(** ** Pages of files *)
(** The page was read, all texts as they are written. *)
Definition reads_page (b : build) (db : dbtype) (ps : N) (buf : list N) (pos : N) (p : page) : Prop := exists z, rd_page b (rd_dstr_strict b) ps db buf pos = Ok (p, z).
Lemma rows_good (rows : list (N * row)) pt : Forall (fun x => row_ok dstr_parsed (snd x) /\ row_ptype_ok pt (snd x)) rows ->
  (forallb (fun x => row_check (snd x)) rows = true <-> Forall (fun x => row_ok dstr_good (snd x) /\ row_ptype_ok pt (snd x)) rows).
Proof.
  intro H. induction H as [|x l [H1 H2] H3 IH]; [split; [constructor|easy]|]. cbn [forallb]. rewrite andb_true_iff, IH, (row_check_good _ H1). split; [intros []; now constructor|intro HI; inversion HI as [|? ? [] ]; now subst].
Qed.
Theorem page_check_iff b db ps buf pos p : bytes_ok buf -> len buf < 2 ^ 64 - 1 -> ps < 2 ^ 32 -> reads_page b db ps buf pos p ->
  (page_check b ps p = true <-> page_consistent b db ps p /\ page_writes b ps p).
Proof.
  intros HB HL HP [z HR]. assert (pos <= len buf) as HPL by (apply (rd_page_pos _ _ _ _ _ _ _ _ HB HR)). destruct p as [h [c|c]]; unfold page_check, page_consistent, page_writes; cbn [pg_content pg_header].
  - destruct (N.lt_ge_cases ps 40) as [L|L].
    { split; [intro H; exfalso; rewrite !andb_true_iff in H; lia|]. intros [[(H & _) _] _]. lia. }
    apply (dpage_rw b _ dstr_parsed) in HR as ((P1 & P2 & P3 & P4 & P5 & P6 & P7 & P8 & P9 & P10 & P11) & _); try easy; [|now apply rd_dstr_strict_rw].
    assert (Forall (fun x => row_ok dstr_parsed (snd x)) (dc_rows c)) as HR by (eapply Forall_impl; [|exact P11]; now intros x []).
    rewrite !andb_true_iff, (rows_good _ _ P11), (tidy_check_iff b _ _ _ _ HR). unfold page_tidy, dpage_ok. split.
    + intros (((H1 & H2) & H3) & H4 & H5). repeat (split; [easy||lia|]). split; [|easy]. split; [|split; [lia|split; [lia|easy]]]. repeat (split; [assumption|]). exact H1.
    + intros ((H1 & H2 & H3 & H4) & H5). split; [split; [split; [|lia]|lia]|now split]. apply H1.
  - apply (ipage_rw b) in HR as (H1 & H2 & H3 & H4 & H5 & _); try easy. rewrite !andb_true_iff. split.
    + intros ((A1 & A2) & A3). split; [|lia]. repeat (split; [assumption|]). lia.
    + intros ((_ & _ & _ & _ & _ & A1 & A2) & A3). lia.
Qed.
Theorem grow_check_iff b db ps buf pos p : bytes_ok buf -> len buf < 2 ^ 64 - 1 -> reads_page b db ps buf pos p -> page_consistent b db ps p -> page_writes b ps p ->
  (grow_check b ps p = true <-> can_grow b db ps p).
Proof.
  intros HB HL [z HR] HC HW. destruct p as [h [c|c]]; unfold grow_check, can_grow, page_consistent, page_writes in *; cbn [pg_content pg_header] in *.
  2:{ split; [easy|]. intros (h' & c' & E & _). discriminate. }
  destruct HC as [HD _]. pose proof HD as (P1 & P2 & P3 & P4 & P5 & P6 & P7 & P8 & P9 & P10 & P11).
  assert (Forall (fun x => row_ok dstr_good (snd x)) (dc_rows c)) as HRO by (eapply Forall_impl; [|exact P11]; now intros x []).
  rewrite !andb_true_iff, (slots_flag _ _ P7), (tidy_check_iff b _ _ _ _ HRO). 
  assert (forallb (fun x => fst x <? ph_used h) (dc_rows c) = true <-> forall o, In o (keys (dc_rows c)) -> o < ph_used h) as ->.
  { rewrite forallb_forall. split.
    - intros H o Ho. apply in_map_iff in Ho as (x & <- & Hx). specialize (H x Hx). lia.
    - intros H x Hx. apply N.ltb_lt, H, in_map_iff. now exists x. }
  split.
  - intros ((((H1 & H2) & H3) & H4 & _) & H5). exists h, c. split; [easy|]. split; [exact HD|]. split; [lia|]. split; [lia|]. now split.
  - intros (h' & c' & [= <- <-] & _ & H1 & H2 & H3 & H4 & H5). repeat split; try easy; lia.
Qed.

(** ** The survey of a file *)
(** Page [i] of a database that was just opened, if it is there, can be read and passes the check. *)
Definition checked_page (b : build) (d : database) (i : N) : option page :=
  let ps := dh_page_size (db_header d) in
  if (1 <=? i) && (i <? dh_next (db_header d)) then
    match rd_page b (rd_dstr_strict b) ps (db_kind d) (db_io d) (i * ps) with Ok (p, _) => if page_check b ps p then Some p else None | _ => None end
  else None.
Definition shelf_of (p : page) : shelf :=
  let h := pg_header p in mk_shelf (ph_type h) (ph_next h) (ph_free h) (c_rows (ph_counts h)) (rows_of_page p).
Definition survey (b : build) (d : database) : shelves := fun i => option_map shelf_of (checked_page b d i).
Definition survey_grade (b : build) (d : database) (i : N) : grade :=
  match checked_page b d i with Some p => if grow_check b (dh_page_size (db_header d)) p then GGrow else GSound | None => GAny end.
(** The pages of a table, if all of them are checked pages of the right type, linked in increasing order. *)
Fixpoint chase (A : shelves) (fuel : nat) (last i : N) : option (list N) :=
  match fuel with
  | O => None
  | S fuel' =>
    match A i with
    | None => None
    | Some s => if i =? last then Some [i] else if i <? sh_next s then option_map (cons i) (chase A fuel' last (sh_next s)) else None
    end
  end.
Definition of_type (A : shelves) (kd : rkind) (i : N) : bool :=
  match A i with Some s => match sh_type s with PT k => if rkind_eq_dec kd k then true else false | PTUnknown _ => false end | None => false end.
Definition table_list (b : build) (d : database) (kd : rkind) : option (list N) :=
  match find_table (PT kd) (db_header d) with
  | Some (_, t) =>
    match chase (survey b d) (N.to_nat (dh_next (db_header d))) (tb_last t) (tb_first t) with
    | Some l => if forallb (of_type (survey b d) kd) l then Some l else None
    | None => None
    end
  | None => None
  end.

Lemma checked_good b k io d i p : bytes_ok io -> len io < 2 ^ 64 - 1 -> db_open io k = DOk d -> 
  (checked_page b d i = Some p <-> good_page b d GSound i p).
Proof.
  intros HB HL HO. unfold db_open in HO. destruct (rd_dbhdr k io 0) as [[h q]| |] eqn:ER; try easy. apply dbhdr_rw in ER as (HH & _); [|easy]. injection HO as <-.
  unfold checked_page, good_page. cbn [db_header db_kind db_io]. assert (dh_page_size h < 2 ^ 32) as HP by apply HH.
  destruct ((1 <=? i) && (i <? dh_next h)) eqn:EI; [|split; [easy|intros (H1 & H2 & _); lia]]. split.
  - destruct (rd_page b (rd_dstr_strict b) (dh_page_size h) k io (i * dh_page_size h)) as [[p' z]| |] eqn:E; [|easy|easy]. destruct (page_check b (dh_page_size h) p') eqn:EC; [|easy]. intros [= ->].
    destruct (proj1 (page_check_iff b k _ io _ p HB HL HP (ex_intro _ z E)) EC) as [H1 H2]. split; [lia|]. split; [lia|]. split; [exact H1|]. split; [exact H2|]. split; [easy|]. now exists z.
  - intros (_ & _ & H1 & H2 & _ & z & E). rewrite E. now rewrite (proj2 (page_check_iff b k _ io _ p HB HL HP (ex_intro _ z E)) (conj H1 H2)).
Qed.
Lemma shelf_of_like p : like (shelf_of p) p.
Proof. repeat split. unfold shelf_of. cbn [sh_rows]. induction (rows_of_page p) as [|r l IH]; constructor; [apply same_values_refl|exact IH]. Qed.
Lemma survey_good b k io d i s : bytes_ok io -> len io < 2 ^ 64 - 1 -> db_open io k = DOk d -> survey b d i = Some s ->
  exists p, good_page b d (survey_grade b d i) i p /\ like s p.
Proof.
  intros HB HL HO H. unfold survey, survey_grade in *. destruct (checked_page b d i) as [p|] eqn:E; [|easy]. injection H as <-. exists p. split; [|apply shelf_of_like].
  apply (checked_good b k io d i p HB HL HO) in E as (H1 & H2 & H3 & H4 & _ & z & H5). split; [easy|]. split; [easy|]. split; [exact H3|]. split; [exact H4|]. split; [|now exists z].
  assert (db_io d = io) as E1 by (unfold db_open in HO; destruct (rd_dbhdr k io 0) as [[h q]| |]; try easy; now injection HO as <-). intro HG. destruct (grow_check b (dh_page_size (db_header d)) p) eqn:EG; [|easy].
  apply (grow_check_iff b (db_kind d) _ (db_io d) (i * dh_page_size (db_header d)) p); try easy; [now rewrite E1|now rewrite E1|now exists z].
Qed.
Lemma chase_path A last : forall fuel i l, chase A fuel last i = Some l -> path A last i l.
Proof.
  induction fuel as [|fuel IH]; intros i l H; [easy|]. cbn [chase] in H. destruct (A i) as [s|] eqn:E; [|easy]. destruct (i =? last) eqn:EL.
  - injection H as <-. apply N.eqb_eq in EL as ->. now apply (path_last A last s).
  - destruct (i <? sh_next s) eqn:EN; [|easy]. destruct (chase A fuel last (sh_next s)) as [l'|] eqn:EC; [|easy]. injection H as <-. apply (path_step A last i s); [lia|easy|lia|now apply IH].
Qed.
Lemma path_chase A last n : (forall i s, A i = Some s -> i < n) -> forall i l, path A last i l -> forall fuel, n <= i + N.of_nat fuel -> chase A fuel last i = Some l.
Proof.
  intros HN i l H. induction H as [s H|i s l H1 H2 H3 H4 IH]; intros fuel HF.
  - pose proof (HN _ _ H). destruct fuel as [|fuel]; [lia|]. cbn [chase]. now rewrite H, N.eqb_refl.
  - pose proof (HN _ _ H2). destruct fuel as [|fuel]; [lia|]. cbn [chase]. rewrite H2. replace (i =? last) with false by lia. replace (i <? sh_next s) with true by lia. rewrite IH by lia. reflexivity.
Qed.
(** Rows of a page of a type are of this type, also those that are inserted. *)
Definition typed (A : shelves) : Prop := forall i s, A i = Some s -> Forall (row_ptype_ok (sh_type s)) (sh_rows s).
Lemma survey_typed b k io d : bytes_ok io -> len io < 2 ^ 64 - 1 -> db_open io k = DOk d -> typed (survey b d).
Proof.
  intros HB HL HO i s H. unfold survey in H. destruct (checked_page b d i) as [p|] eqn:E; [|easy]. injection H as <-. apply (checked_good b k io d i p HB HL HO) in E as (_ & _ & H & _).
  unfold shelf_of. cbn [sh_type sh_rows]. destruct p as [h [c|c]]; unfold page_consistent, rows_of_page in *; cbn [pg_content pg_header] in *; [|constructor].
  destruct H as [(_ & _ & _ & _ & _ & _ & _ & _ & _ & _ & H) _]. apply Forall_map. eapply Forall_impl; [|exact H]. now intros x [].
Qed.
Lemma places_typed b : forall ops s, Forall (op_fine b (sh_type s)) ops -> Forall (row_ptype_ok (sh_type s)) (sh_rows s) -> sh_type (places ops s) = sh_type s /\ Forall (row_ptype_ok (sh_type s)) (sh_rows (places ops s)).
Proof.
  induction ops as [|op ops IH]; intros s HO HS; [now split|]. inversion HO as [|? ? O1 O2]; subst. change (places (op :: ops) s) with (places ops (place s op)).
  assert (sh_type (place s op) = sh_type s) as ET by (unfold place; now destruct (sh_free s <? _)). rewrite <- ET in O2 |- *. 
  assert (Forall (row_ptype_ok (sh_type (place s op))) (sh_rows (place s op))) as HP; [|destruct (IH _ O2 HP) as [E1 E2]; now split].
  rewrite ET. unfold place. destruct (sh_free s <? _); [easy|]. cbn [sh_rows]. apply Forall_app. split; [easy|]. destruct O1 as [[_ O1] _]. destruct (snd op) as [r|]; [|constructor]. constructor; [|constructor]. apply O1.
Qed.
Lemma work_typed b G es : forall A, allowed b G A es -> typed A -> typed (work es A) /\ forall i kd, of_type (work es A) kd i = of_type A kd i.
Proof.
  induction es as [|e es IH]; intros A HA HT; [now split|]. change (work (e :: es) A) with (work es (work1 A e)). pose proof HA as HA'. inversion HA as [|? ? (s & E & HE) HA2]; subst.
  assert (sh_type (places (snd e) s) = sh_type s /\ Forall (row_ptype_ok (sh_type s)) (sh_rows (places (snd e) s))) as [P1 P2].
  { destruct HE as [[_ ->]|[_ HF]]; [split; [easy|now apply (HT (fst e))]|]. apply (places_typed b); [easy|now apply (HT (fst e))]. }
  assert (forall i s', work1 A e i = Some s' -> exists s0, A i = Some s0 /\ sh_type s' = sh_type s0 /\ Forall (row_ptype_ok (sh_type s')) (sh_rows s')) as HW.
  { intros i s' H. unfold work1 in H. destruct (i =? fst e) eqn:EI; [|exists s'; split; [easy|split; [easy|now apply (HT i)]]]. apply N.eqb_eq in EI as ->. rewrite E in H. injection H as <-. exists s. rewrite P1. now split. }
  destruct (IH (work1 A e)) as [H1 H2].
  - change (e :: es) with ([e] ++ es) in HA'. unfold allowed in HA'. change (work1 A e) with (work [e] A). apply Forall_app in HA' as [A1 A2]. now apply allowed_work.
  - intros i s' H. destruct (HW i s' H) as (s0 & _ & _ & H3). exact H3.
  - split; [exact H1|]. intros i kd. rewrite H2. unfold of_type, work1. destruct (i =? fst e) eqn:EI; [|easy]. apply N.eqb_eq in EI as ->. rewrite E. cbn [option_map]. now rewrite P1.
Qed.
Lemma typed_variant A kd l : typed A -> forallb (of_type A kd) l = true -> forallb (is_variant kd) (flat_map (shelf_rows A) l) = true.
Proof.
  intros HT HF. apply forallb_forall. intros r Hr. apply in_flat_map in Hr as (i & Hi & Hr). rewrite forallb_forall in HF. specialize (HF i Hi). unfold of_type, shelf_rows in *. destruct (A i) as [s|] eqn:E; [|easy].
  specialize (HT i s E). rewrite Forall_forall in HT. specialize (HT r Hr). destruct (sh_type s) as [k|]; [|easy]. destruct (rkind_eq_dec kd k) as [<-|]; [|easy]. destruct r as [k' vs oc|]; [|easy]. cbn [row_ptype_ok] in HT. subst k'.
  cbn [is_variant]. now destruct (rkind_eq_dec kd kd).
Qed.
