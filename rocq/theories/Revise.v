(** * Programs that change rows in place *)
From Coq Require Import NArith ZArith List Bool Lia.
From Coq Require Import ZifyBool ZifyNat ZifyN.
From Verif Require Import Base BaseFacts Segs Str StrFacts StrGood Schema SchemaFacts Oa OaFacts OaSpec Rows RowFacts RowSpec Page BitFacts PageFacts PageRw PageSpec IndexSpec Alloc AllocFacts AllocSpec Db DbFacts DbFlush DbFresh Reread Progress Insert Session Delete.
Import ListNotations.
Open Scope N_scope.

(** ** Model *)
(** Assigning fields of a row through [&mut Row], as [values_mut] of [rows] (src/pdb/mod.rs:672) and [as_variant_mut] (mod.rs:2086-2091) give it.
    A program sees the fields and the strings of the offset array (src/pdb/offset_array.rs:83-92; none if the row has no offset array).  It leaves new fields, new strings, and may
    reset the offsets to be calculated when the row is written ([offsets] is public, [MaybeCalculated::Calculated], offset_array.rs:86-89). *)
Record fill : Type := mk_fill { fl_vals : list fval; fl_strs : list dstr; fl_calc : bool }.
Definition change : Type := list fval -> list dstr -> fill.
Definition strings (oc : option oarr) : list dstr := match oc with Some c => oa_items c | None => [] end.
Definition assign (f : change) (r : row) : row :=
  match r with
  | RRow k vs oc =>
    let x := f vs (strings oc) in
    RRow k (fl_vals x) (match oc with Some c => Some (mk_oarr (if fl_calc x then None else oa_offs c) (fl_strs x)) | None => None end)
  | RUnknown => RUnknown
  end.
(** Programs that assign fields only. *)
Definition fields_only (g : list fval -> list fval) : change := fun vs ds => mk_fill (g vs) ds false.
(** The rows of a page in the order of the [BTreeMap]; the program may do something else with every row, [f i] is for the row number [i]. *)
Fixpoint assign_rows (f : N -> change) (i : N) (rows : list (N * row)) : list (N * row) :=
  match rows with [] => [] | (o, r) :: rest => (o, assign (f i) r) :: assign_rows f (i + 1) rest end.
(** [as_data_mut] (mod.rs:460-467): index pages have no rows. *)
Definition assign_page (f : N -> change) (i : N) (p : page) : page :=
  match pg_content p with
  | PData c => mk_page (pg_header p) (PData (mk_dcontent (dc_header c) (dc_groups c) (assign_rows f i (dc_rows c))))
  | PIndex _ => p
  end.
(** A loop over [iter_rows] (src/pdb/io.rs:168-185) that assigns fields of the rows.  The next page is determined before the rows are handed out.
    After a panic, the rows in front of the one with the wrong type would have been changed as well; that is left out. *)
Fixpoint assign_n (b : build) (k : rkind) (f : N -> change) (fuel : nat) (i : N) (d : database) (it : piter) : database * option (dres unit) :=
  match fuel with
  | O => (d, None)
  | S n =>
    match iter_next b d it with
    | (d1, _, DOk None) => (d1, Some (DOk tt))
    | (d1, it1, DOk (Some (j, p))) =>
      if forallb (is_variant k) (rows_of_page p) then assign_n b k f n (i + len (rows_of_page p)) (set_page d1 j (assign_page f i p)) it1
      else (d1, Some DPanic)
    | (d1, _, DErr e) => (d1, Some (DErr e))
    | (d1, _, DPanic) => (d1, Some DPanic)
    end
  end.
Definition assign_all (b : build) (k : rkind) (f : N -> change) (d : database) : database * option (dres unit) :=
  match iter_pages d (PT k) with
  | DOk it => assign_n b k f (S (S (length (db_pages d)))) 0 d it
  | DErr e => (d, Some (DErr e))
  | DPanic => (d, Some DPanic)
  end.
(** What programs do: insert rows in a page, see Session.v; assign fields in the rows of a page ([load_page], io.rs:104-123); in the rows of a table; delete a row of a page, see Delete.v; save. *)
Inductive act : Type :=
| AInsert (j : N) (ops : list (N * option row))
| AAssign (j : N) (f : N -> change)
| AAssignAll (k : rkind) (f : N -> change)
| ADelete (j i : N)
| ASave.
Inductive does (b : build) (d : database) : act -> database -> Prop :=
| does_insert j ops d1 p p' : load_page b d j = (d1, DOk p) -> run b ops p = Ok p' -> does b d (AInsert j ops) (set_page d1 j p')
| does_assign j f d1 p : load_page b d j = (d1, DOk p) -> does b d (AAssign j f) (set_page d1 j (assign_page f 0 p))
| does_all k f d1 : assign_all b k f d = (d1, Some (DOk tt)) -> does b d (AAssignAll k f) d1
| does_delete j i d1 p p' : load_page b d j = (d1, DOk p) -> delete_row b i p = Ok p' -> does b d (ADelete j i) (set_page d1 j p')
| does_save d1 : flush b d = DOk d1 -> does b d ASave d1.
Inductive acts (b : build) : database -> list act -> database -> Prop :=
| acts_nil d : acts b d [] d
| acts_cons d a d1 l d2 : does b d a d1 -> acts b d1 l d2 -> acts b d (a :: l) d2.
Definition program (b : build) (k : dbtype) (io : list N) (l : list act) (io' : list N) : Prop :=
  exists d d1 d2, db_open io k = DOk d /\ acts b d l d1 /\ flush b d1 = DOk d2 /\ db_io d2 = io'.
Inductive programs (b : build) (k : dbtype) : list N -> list (list act) -> list N -> Prop :=
| programs_nil io : programs b k io [] io
| programs_cons io l io1 ls io2 : program b k io l io1 -> programs b k io1 ls io2 -> programs b k io (l :: ls) io2.

(** ** Spec *)
(** Changing the rows on a shelf, counting from [i]. *)
Fixpoint revised (f : N -> change) (i : N) (rows : list row) : list row :=
  match rows with
  | [] => []
  | RRow k vs oc :: rest =>
    let x := f i vs (strings oc) in
    RRow k (fl_vals x) (match oc with Some c => Some (mk_oarr (if fl_calc x then None else oa_offs c) (fl_strs x)) | None => None end) :: revised f (i + 1) rest
  | RUnknown :: rest => RUnknown :: revised f (i + 1) rest
  end.
Definition revise (f : N -> change) (i : N) (s : shelf) : shelf := mk_shelf (sh_type s) (sh_next s) (sh_free s) (sh_slots s) (revised f i (sh_rows s)).
Definition put (A : shelves) (j : N) (s : shelf) : shelves := fun i => if i =? j then Some s else A i.
(** Changing the rows on some shelves, one shelf after the other; the numbers of the rows go on. *)
Fixpoint revise_all (f : N -> change) (l : list N) (i : N) (A : shelves) : shelves :=
  match l with
  | [] => A
  | j :: rest => match A j with Some s => revise_all f rest (i + len (sh_rows s)) (put A j (revise f i s)) | None => A end
  end.
(** [P k] are the shelves of table [k]. *)
Definition act_work (P : rkind -> list N) (A : shelves) (a : act) : shelves :=
  match a with
  | AInsert j ops => work1 A (j, ops)
  | AAssign j f => match A j with Some s => put A j (revise f 0 s) | None => A end
  | AAssignAll k f => revise_all f (P k) 0 A
  | ADelete j i => match A j with Some s => put A j (take_out i s) | None => A end
  | ASave => A
  end.
Definition acts_work (P : rkind -> list N) (A : shelves) (l : list act) : shelves := fold_left (act_work P) l A.
(** The bytes that a row consists of: fields, offsets, strings; without the gaps between them. *)
Definition row_parts (b : build) (k : rkind) (vs : list fval) (ds : list dstr) (n : N) : Prop :=
  exists bs xs, enc_fields b (row_fields k) vs = Ok bs /\ Forall2 (fun d x => dstr_enc b d = Ok x) ds xs /\
    n = len bs + (len ds + 1) * os_bytes (row_osize vs) + len (concat xs).
(** New fields of a row must be valid for their types and must not take more bytes in the file than the old ones.  If the row has an offset array, the number of strings stays the same.
    If the offsets are to be calculated anew, the new row as one block must fit into the space of the old parts.
    Otherwise, the subtype must ask for the same size of offsets, no string may take more bytes than the one it replaces; in case the row has not got its offsets yet,
    the block must not become larger (which can happen only if a string needs another alignment). *)
Definition modest (b : build) (f : change) (r : row) : Prop :=
  match r with
  | RUnknown => True
  | RRow k vs oc =>
    let x := f vs (strings oc) in
    fields_ok dstr_good (row_fields k) (fl_vals x) /\
    match oc with
    | None => exists bs bs', enc_fields b (row_fields k) vs = Ok bs /\ enc_fields b (row_fields k) (fl_vals x) = Ok bs' /\ len bs' <= len bs
    | Some c =>
      length (fl_strs x) = length (oa_items c) /\ Forall dstr_good (fl_strs x) /\
      let block := RRow k (fl_vals x) (Some (mk_oarr None (fl_strs x))) in
      if fl_calc x then exists n m, row_parts b k vs (oa_items c) n /\ row_size b block m /\ m <= n
      else row_osize (fl_vals x) = row_osize vs /\
           Forall2 (fun d d' => exists y y', dstr_enc b d = Ok y /\ dstr_enc b d' = Ok y' /\ len y' <= len y) (oa_items c) (fl_strs x) /\
           (forall m, row_size b (RRow k vs (Some (mk_oarr None (oa_items c)))) m -> exists m', row_size b block m' /\ m' <= m)
    end
  end.
Fixpoint modest_rows (b : build) (f : N -> change) (i : N) (rows : list row) : Prop :=
  match rows with [] => True | r :: rest => modest b (f i) r /\ modest_rows b f (i + 1) rest end.
(** What is allowed: inserting as in Session.v; assigning and deleting in pages that may be written. *)
Definition act_ok (b : build) (h : dbhdr) (G : N -> grade) (P : rkind -> list N) (A : shelves) (a : act) : Prop :=
  match a with
  | AInsert j ops => allowed1 b G A (j, ops)
  | AAssign j f => exists s, A j = Some s /\ G j <> GAny /\ modest_rows b f 0 (sh_rows s)
  | AAssignAll k f => exists i t, find_table (PT k) h = Some (i, t) /\ path A (tb_last t) (tb_first t) (P k) /\ Forall (fun j => G j <> GAny) (P k) /\
                        forallb (is_variant k) (flat_map (shelf_rows A) (P k)) = true /\ modest_rows b f 0 (flat_map (shelf_rows A) (P k))
  | ADelete j i => (exists s, A j = Some s) /\ G j <> GAny
  | ASave => True
  end.
Fixpoint acts_ok (b : build) (h : dbhdr) (G : N -> grade) (P : rkind -> list N) (A : shelves) (l : list act) : Prop :=
  match l with [] => True | a :: rest => act_ok b h G P A a /\ acts_ok b h G P (act_work P A a) rest end.

(** ** Rows *)
Lemma segs_disj_filter g : forall l, segs_disj l -> segs_disj (filter g l).
Proof.
  induction l as [|s l IH]; intro H; [easy|]. destruct H as [H1 H2]. cbn [filter]. destruct (g s); [|now apply IH]. split; [|now apply IH].
  apply Forall_forall. intros x Hx. apply filter_In in Hx as [Hx _]. rewrite Forall_forall in H1. now apply H1.
Qed.
Definition seg_total (l : list seg) : N := len (concat (map snd l)).
Lemma seg_total_cons s l : seg_total (s :: l) = len (snd s) + seg_total l.
Proof. unfold seg_total. cbn [map concat]. apply len_app. Qed.
Lemma seg_total_filter g l : seg_total l = seg_total (filter g l) + seg_total (filter (fun s => negb (g s)) l).
Proof. induction l as [|s l IH]; [easy|]. cbn [filter]. destruct (g s); cbn [negb]; rewrite !seg_total_cons, IH; lia. Qed.
Lemma filter_shorter {X} (g : X -> bool) l : (length (filter g l) <= length l)%nat.
Proof. induction l as [|x l IH]; [easy|]. cbn [filter]. destruct (g x); cbn [length]; lia. Qed.
(** Disjoint segments have room. *)
Lemma segs_total : forall n l lo hi, (length l <= n)%nat -> lo <= hi -> segs_disj l -> segs_within lo hi l -> seg_total l <= hi - lo.
Proof.
  induction n as [|n IH]; intros l lo hi HN HLH HD HW; [destruct l; [unfold seg_total; cbn; lia|cbn in HN; lia]|]. destruct l as [|s l]; [unfold seg_total; cbn; lia|].
  destruct HD as [D1 D2]. inversion HW as [|? ? W1 W2]; subst. rewrite seg_total_cons. set (g := fun x : seg => seg_end x <=? fst s). rewrite (seg_total_filter g l). cbn [length] in HN.
  rewrite Forall_forall in D1. unfold segs_within in *. rewrite Forall_forall in W2.
  assert (forall h, (length (filter h l) <= n)%nat) as HL by (intro h; pose proof (filter_shorter h l); lia).
  assert (seg_total (filter g l) <= fst s - lo) as H1.
  { apply IH; [apply HL|easy|now apply segs_disj_filter|]. apply Forall_forall. intros x Hx. apply filter_In in Hx as [Hx Hg]. specialize (W2 x Hx). unfold g in Hg. lia. }
  assert (seg_total (filter (fun x => negb (g x)) l) <= hi - seg_end s) as H2.
  { apply IH; [apply HL|easy|now apply segs_disj_filter|]. apply Forall_forall. intros x Hx. apply filter_In in Hx as [Hx Hg]. specialize (W2 x Hx). specialize (D1 x Hx). unfold g in Hg. unfold seg_disj in D1. lia. }
  unfold seg_end in *. lia.
Qed.
(** Segments at the same places that are not longer. *)
Definition shrunk (s s' : seg) : Prop := fst s' = fst s /\ len (snd s') <= len (snd s).
Lemma shrunk_disj : forall l l', Forall2 shrunk l l' -> segs_disj l -> segs_disj l'.
Proof.
  assert (forall s s', shrunk s s' -> forall l l', Forall2 shrunk l l' -> Forall (seg_disj s) l -> Forall (seg_disj s') l') as H0.
  { intros s s' [H1 H2] l l' H. induction H as [|t t' l l' [T1 T2] _ IH]; intro HD; [constructor|]. inversion HD as [|? ? D1 D2]; subst. constructor; [|now apply IH]. unfold seg_disj, seg_end in *. lia. }
  intros l l' H. induction H as [|s s' l l' H1 H2 IH]; intro HD; [easy|]. destruct HD as [D1 D2]. split; [now apply (H0 s s' H1 l)|now apply IH].
Qed.
Lemma shrunk_within lo hi : forall l l', Forall2 shrunk l l' -> segs_within lo hi l -> segs_within lo hi l'.
Proof. intros l l' H. induction H as [|s s' l l' [H1 H2] _ IH]; intro HW; [constructor|]. inversion HW as [|? ? W1 W2]; subst. constructor; [|now apply IH]. unfold seg_end in *. lia. Qed.
Lemma items_segs_shrunk b base : forall ds ds' os l, Forall2 (fun d d' => exists y y', dstr_enc b d = Ok y /\ dstr_enc b d' = Ok y' /\ len y' <= len y) ds ds' ->
  items_segs b base ds os = Ok l -> exists l', items_segs b base ds' os = Ok l' /\ Forall2 shrunk l l'.
Proof.
  intros ds ds' os l H. revert os l. induction H as [|d d' ds ds' (y & y' & E & E' & L) _ IH]; intros os l HI; [cbn in HI; injection HI as <-; now exists []|].
  destruct os as [|o os]; [cbn in HI; injection HI as <-; now exists []|]. cbn [items_segs] in *. rewrite E in HI. rewrite E'. cbn [res_bind] in *.
  destruct (items_segs b base ds os) as [l0| |] eqn:EI; try easy. cbn [res_bind] in HI. injection HI as <-. destruct (IH os l0 EI) as (l' & E2 & S). rewrite E2. cbn [res_bind]. eexists. split; [reflexivity|]. now constructor.
Qed.
Lemma items_segs_total b base : forall ds os l xs, length os = length ds -> Forall2 (fun d x => dstr_enc b d = Ok x) ds xs -> items_segs b base ds os = Ok l -> seg_total l = len (concat xs).
Proof.
  intros ds os l xs HL H. revert os l HL. induction H as [|d x ds xs E _ IH]; intros [|o os] l HL HI; try easy; [cbn in HI; now injection HI as <-|]. cbn [items_segs] in HI. rewrite E in HI. cbn [res_bind] in HI.
  destruct (items_segs b base ds os) as [l0| |] eqn:EI; try easy. cbn [res_bind] in HI. injection HI as <-. rewrite seg_total_cons. cbn [snd concat]. rewrite len_app. cbn [length] in HL. rewrite (IH os l0); [easy|lia|easy].
Qed.
Lemma calc_body_total b : forall ds xs cur os body, Forall2 (fun d x => dstr_enc b d = Ok x) ds xs -> calc_body b cur ds = Ok (os, body) -> len (concat xs) <= len body.
Proof.
  intros ds xs cur os body H. revert cur os body. induction H as [|d x ds xs E _ IH]; intros cur os body HC; [cbn; lia|]. cbn [calc_body] in HC. rewrite E in HC. cbn [res_bind] in HC.
  destruct (calc_body b (aligned_offset cur (dstr_align d) + len x) ds) as [[os' y]| |] eqn:EC; try easy. cbn [res_bind] in HC. injection HC as <- <-. cbn [concat]. rewrite !len_app. apply IH in EC. lia.
Qed.
(** The size of a block. *)
Lemma row_size_enc b Q r n : row_ok Q r -> row_calc r -> row_size b r n <-> exists bs, row_enc b r = Ok bs /\ len bs = n.
Proof.
  intros HR HC. unfold row_size. split.
  - intros (bs & p & HW & HL). rewrite row_write_segs in HW. destruct (row_segs b r 0) as [[[l r'] q]| |] eqn:ES; try easy. cbn [res_bind] in HW. injection HW as <- <-.
    destruct (row_enc_segs b Q r 0 l r' q HR HC ES) as (x & E & HB & _). exists x. split; [easy|]. now rewrite HB, write_at_nil0 in HL.
  - intros (bs & HE & HL). assert (exists l r' p, row_segs b r 0 = Ok (l, r', p)) as (l & r' & p & ES).
    { destruct r as [k vs oc|]; [|now do 3 eexists]. cbn [row_enc row_segs row_ok row_calc] in *. destruct HR as [HV HO]. destruct (enc_fields b (row_fields k) vs) as [x| |] eqn:EF; try easy. cbn [res_bind] in *.
      destruct (row_oarr k) as [[off m]|] eqn:EK, oc as [c|]; try easy; [|now do 3 eexists]. destruct (oarr_enc b off (row_osize vs) (oa_items c)) as [[o y]| |] eqn:EO; try easy.
      unfold oarr_segs, calculate_base. destruct (row_oarr_fields k off m EK) as (F1 & F2 & F3). assert (len x = off) as LX by (rewrite <- F2; now apply (fields_enc_len b Q _ vs)).
      replace (off <=? 0 + len x) with true by lia. cbn [res_bind]. rewrite HC, EO. cbn [res_bind]. now do 3 eexists. }
    destruct (row_enc_segs b Q r 0 l r' p HR HC ES) as (x & E & HB & _). rewrite HE in E. apply Ok_inj in E. subst x. exists bs, p. split; [|easy].
    rewrite row_write_segs, ES. cbn [res_bind]. rewrite HB, write_at_nil0. reflexivity.
Qed.
Lemma modest_same b f r r' : same_values r r' -> modest b f r -> modest b f r'.
Proof.
  destruct r as [k vs oc|], r' as [k' vs' oc'|]; cbn [same_values modest]; try easy. intros (-> & -> & E). destruct oc as [c|], oc' as [c'|]; try easy. cbn [option_map] in E. injection E as E. cbn [strings]. now rewrite E.
Qed.
Lemma assign_same f r r' : same_values r r' -> same_values (assign f r) (assign f r').
Proof.
  destruct r as [k vs oc|], r' as [k' vs' oc'|]; cbn [same_values assign]; try easy. intros (-> & -> & E). destruct oc as [c|], oc' as [c'|]; try easy. cbn [option_map] in E. injection E as E. cbn [strings option_map oa_items]. now rewrite E.
Qed.
(** Rows as one block. *)
Lemma block_row b r m : row_ok dstr_good r -> row_calc r -> row_size b r m -> row_writes b r /\ forall n, m <= n -> row_fits b r n.
Proof.
  intros HR HC HS. split; [destruct HS as (bs & p & HW & _); now exists (bs, p)|]. intros n HN pos l r' p ES. apply (row_size_enc b dstr_good) in HS as (bs & HE & HL); try easy.
  destruct (row_enc_segs b dstr_good r pos l r' p HR HC ES) as (x & E & _ & HW & HD & _). rewrite HE in E. apply Ok_inj in E. subst x. split; [easy|]. eapply Forall_impl; [|exact HW]. cbv beta. intros s; lia.
Qed.
(** A row takes at least the bytes of its parts. *)
Lemma parts_fit b k vs c n m : row_ok dstr_good (RRow k vs (Some c)) -> row_writes b (RRow k vs (Some c)) -> row_parts b k vs (oa_items c) n -> row_fits b (RRow k vs (Some c)) m -> n <= m.
Proof.
  cbn [row_ok]. intros [HV HO] HW (bs & xs & E & HX & ->) HF. apply writes_segs in HW as (l & r' & p & HW). destruct (HF 0 l r' p HW) as [D W]. pose proof (segs_total (length l) l 0 (0 + m) ltac:(lia) ltac:(lia) D W) as HT.
  cbn [row_segs] in HW. rewrite E in HW. cbn [res_bind] in HW. destruct (row_oarr k) as [[off q]|] eqn:EK; [|easy]. destruct HO as (O1 & O2 & O3).
  destruct (oarr_segs b off (row_osize vs) c (0 + len bs)) as [[[l0 o] p0]| |] eqn:EO; try easy. cbn [res_bind] in HW. injection HW as <- <- <-. rewrite seg_total_cons in HT. cbn [snd] in HT.
  enough ((len (oa_items c) + 1) * os_bytes (row_osize vs) + len (concat xs) <= seg_total l0) by lia.
  unfold oarr_segs in EO. destruct (calculate_base (0 + len bs) off) as [base| |]; try easy. cbn [res_bind] in EO. destruct (oa_offs c) as [o'|].
  - destruct O3 as (P1 & P2 & P3). destruct (osize_eqb (of_size o') (row_osize vs)); try easy. destruct (items_segs b base (oa_items c) (of_list o')) as [l1| |] eqn:EI; try easy. cbn [res_bind] in EO. injection EO as <- <- <-.
    rewrite seg_total_cons. cbn [snd]. rewrite len_offs_enc, P1. rewrite (items_segs_total b base (oa_items c) (of_list o') l1 xs); [|congruence|easy|easy]. replace (len (of_list o')) with (len (oa_items c)) by (unfold len; now rewrite P2, O1). lia.
  - destruct (oarr_enc b off (row_osize vs) (oa_items c)) as [[o1 y]| |] eqn:EE; try easy. cbn [res_bind] in EO. injection EO as <- <- <-. rewrite seg_total_cons. cbn [snd]. unfold oarr_enc in EE.
    destruct (calc_body b (off + (len (oa_items c) + 1) * os_bytes (row_osize vs)) (oa_items c)) as [[os body]| |] eqn:EC; try easy. cbn [res_bind] in EE.
    unfold offs_new in EE. destruct (forallb _ os); try easy. cbn [res_bind] in EE. injection EE as <- <-. rewrite len_app, len_offs_enc. cbn [of_list of_size].
    rewrite (calc_body_len _ _ _ _ _ EC). pose proof (calc_body_total b _ _ _ _ _ HX EC). change (seg_total []) with 0. lia.
Qed.
Lemma modest_row b f r : row_ok dstr_good r -> row_writes b r -> modest b f r ->
  row_ok dstr_good (assign f r) /\ row_writes b (assign f r) /\ (forall n, row_fits b r n -> row_fits b (assign f r) n) /\ (forall pt, row_ptype_ok pt r -> row_ptype_ok pt (assign f r)).
Proof.
  destruct r as [k vs oc|]; [|easy]. intros HR HW HM. cbn [assign]. destruct oc as [c|]; cbn [modest strings] in *.
  - set (x := f vs (oa_items c)) in *. destruct HM as (M1 & M2 & M3 & M4). pose proof HR as HR0. cbn [row_ok] in HR. destruct HR as [HV HO]. destruct (row_oarr k) as [[off m]|] eqn:EK; [|easy]. destruct HO as (O1 & O2 & O3).
    assert (row_ok dstr_good (RRow k (fl_vals x) (Some (mk_oarr None (fl_strs x))))) as HB.
    { cbn [row_ok]. rewrite EK. split; [easy|]. unfold oarr_ok. cbn [oa_items oa_offs]. split; [congruence|]. now split. }
    assert (forall r', r' = RRow k (fl_vals x) (Some (mk_oarr (if fl_calc x then None else oa_offs c) (fl_strs x))) -> forall pt, row_ptype_ok pt (RRow k vs (Some c)) -> row_ptype_ok pt r') as HT by (intros r' -> pt; now destruct pt).
    destruct (fl_calc x) eqn:EC.
    + destruct M4 as (n & sz & P & S & L). destruct (block_row b _ sz HB eq_refl S) as [B1 B2]. split; [easy|]. split; [easy|]. split; [|now apply HT]. intros n0 HF. apply B2. pose proof (parts_fit b k vs c n n0 HR0 HW P HF). lia.
    + destruct M4 as (M4 & M5 & M6). destruct c as [[o|] items]; cbn [oa_offs oa_items] in *.
      * destruct O3 as (P1 & P2 & P3).
        assert (row_ok dstr_good (RRow k (fl_vals x) (Some (mk_oarr (Some o) (fl_strs x))))) as HN.
        { cbn [row_ok]. rewrite EK. split; [easy|]. unfold oarr_ok. cbn [oa_items oa_offs]. split; [congruence|]. split; [easy|]. now rewrite M4. }
        split; [exact HN|]. destruct (row_oarr_fields k off m EK) as (F1 & F2 & F3).
        destruct (fields_enc_size b dstr_good _ _ F1 M1) as (bs' & E' & L').
        assert (forall pos l r' p, row_segs b (RRow k vs (Some (mk_oarr (Some o) items))) pos = Ok (l, r', p) ->
          exists l2 r2 p2, row_segs b (RRow k (fl_vals x) (Some (mk_oarr (Some o) (fl_strs x)))) pos = Ok (l2, r2, p2) /\ Forall2 shrunk l l2) as HS.
        { intros pos l r' p HE. cbn [row_segs] in *. rewrite E', EK in *. destruct (enc_fields b (row_fields k) vs) as [bs| |] eqn:E; try easy. cbn [res_bind] in *.
          pose proof (fields_enc_len b dstr_good _ vs bs F1 HV E) as LB. rewrite L', <- LB, M4. unfold oarr_segs in *. cbn [oa_offs oa_items] in *. destruct (calculate_base (pos + len bs) off) as [base| |]; try easy. cbn [res_bind] in *.
          destruct (osize_eqb (of_size o) (row_osize vs)); try easy. destruct (items_segs b base items (of_list o)) as [l1| |] eqn:EI; try easy. cbn [res_bind] in HE. injection HE as <- <- <-.
          destruct (items_segs_shrunk b base items (fl_strs x) (of_list o) l1 M5 EI) as (l2 & E2 & S2). rewrite E2. cbn [res_bind]. do 3 eexists. split; [reflexivity|].
          constructor; [split; cbn [fst snd]; [easy|lia]|]. constructor; [split; cbn [fst snd]; [easy|lia]|exact S2]. }
        split; [|split; [|now apply HT]].
        -- apply writes_segs in HW as (l & r' & p & HW). apply writes_segs. destruct (HS 0 l r' p HW) as (l2 & r2 & p2 & E2 & _). now exists l2, r2, p2.
        -- intros n HF pos l2 r2 p2 E2. apply writes_segs in HW as (l0 & r0 & p0 & HW).
           assert (exists l r' p, row_segs b (RRow k vs (Some (mk_oarr (Some o) items))) pos = Ok (l, r', p)) as (l & r' & p & E1).
           { clear - HW EK HV F1 F2. cbn [row_segs] in *. destruct (enc_fields b (row_fields k) vs) as [bs| |] eqn:E; try easy. cbn [res_bind] in *. rewrite EK in *. pose proof (fields_enc_len b dstr_good _ vs bs F1 HV E) as LB. unfold oarr_segs, calculate_base in *. cbn [oa_offs oa_items] in *.
             replace (off <=? 0 + len bs) with true in HW by lia. replace (off <=? pos + len bs) with true by lia. cbn [res_bind] in *. destruct (osize_eqb (of_size o) (row_osize vs)); try easy.
             assert (forall ds os base base' l, items_segs b base ds os = Ok l -> exists l', items_segs b base' ds os = Ok l') as HI.
             { induction ds as [|d ds IH]; intros [|oo os] base base' l H; try now exists []. cbn [items_segs] in *. destruct (dstr_enc b d) as [y| |]; try easy. cbn [res_bind] in *. destruct (items_segs b base ds os) as [l1| |] eqn:EI; try easy.
               destruct (IH os base base' l1 EI) as [l1' ->]. now eexists. }
             destruct (items_segs b (0 + len bs - off) items (of_list o)) as [l1| |] eqn:EI; try easy. destruct (HI _ _ _ (pos + len bs - off) _ EI) as [l1' ->]. cbn [res_bind]. now do 3 eexists. }
           destruct (HS pos l r' p E1) as (l3 & r3 & p3 & E3 & S3). rewrite E2 in E3. injection E3 as <- <- <-. destruct (HF pos l r' p E1) as [D W]. split; [now apply (shrunk_disj l)|now apply (shrunk_within _ _ l)].
      * assert (exists sz, row_size b (RRow k vs (Some (mk_oarr None items))) sz) as [sz HSZ] by (destruct HW as [[bs p] HW]; now exists (len bs), bs, p).
        destruct (M6 sz HSZ) as (sz' & HSZ' & HL). destruct (block_row b _ sz' HB eq_refl HSZ') as [B1 B2]. split; [easy|]. split; [easy|]. split; [|now apply HT].
        intros n HF. apply B2. apply (row_size_enc b dstr_good) in HSZ as (bs & HE & HLB); try easy. apply writes_segs in HW as (l & r' & p & HW). destruct (HF 0 l r' p HW) as [_ W].
        cbn [row_enc] in HE. cbn [row_segs] in HW. rewrite EK in HE, HW. destruct (enc_fields b (row_fields k) vs) as [bs0| |]; try easy. cbn [res_bind] in *. unfold oarr_segs in HW. cbn [oa_offs oa_items] in *.
        destruct (calculate_base (0 + len bs0) off); try easy. cbn [res_bind] in HW. destruct (oarr_enc b off (row_osize vs) items) as [[o y]| |]; try easy. cbn [res_bind] in *. injection HW as <- <- <-. apply Ok_inj in HE. subst bs.
        inversion W as [|? ? _ W2]; subst. inversion W2 as [|? ? W3 _]; subst. unfold seg_end in W3. cbn [fst snd] in W3. rewrite len_app in HL. lia.
  - set (x := f vs []) in *. destruct HM as (M1 & bs & bs' & E & E' & ML). cbn [row_ok] in HR. destruct HR as [HV HO]. apply writes_segs in HW as (l & r' & p & HW). cbn [row_segs] in HW. rewrite E in HW. cbn [res_bind] in HW.
    destruct (row_oarr k) as [[off m]|] eqn:EK; try easy. cbn [row_ok]. rewrite EK. split; [easy|]. split; [|split; [|intro pt; now destruct pt]].
    + apply writes_segs. cbn [row_segs]. rewrite E', EK. cbn [res_bind]. now do 3 eexists.
    + intros n HF pos l1 r1 p1 H. cbn [row_segs] in H. rewrite E', EK in H. cbn [res_bind] in H. injection H as <- <- <-.
      assert (row_segs b (RRow k vs None) pos = Ok ([(pos, bs)], RRow k vs None, pos + len bs)) as HS by (cbn [row_segs]; now rewrite E, EK).
      destruct (HF _ _ _ _ HS) as [D W]. inversion W as [|? ? W1 _]; subst. split; [cbn; easy|]. constructor; [|constructor]. unfold seg_end in *. cbn [fst snd] in *. lia.
Qed.
(** All strings of a row that can be written can be encoded. *)
Lemma writes_items b k vs c : row_ok dstr_good (RRow k vs (Some c)) -> row_writes b (RRow k vs (Some c)) -> Forall (fun d => exists y, dstr_enc b d = Ok y) (oa_items c).
Proof.
  cbn [row_ok]. intros [_ HO] HW. apply writes_segs in HW as (l & r' & p & HW). cbn [row_segs] in HW. destruct (row_oarr k) as [[off m]|]; [|easy]. destruct HO as (O1 & _ & O3).
  destruct (enc_fields b (row_fields k) vs) as [bs| |]; try easy. cbn [res_bind] in HW. unfold oarr_segs in HW. destruct (calculate_base (0 + len bs) off) as [base| |]; try easy. cbn [res_bind] in HW. destruct c as [[o|] items]; cbn [oa_offs oa_items] in *.
  - destruct O3 as (_ & O3 & _). destruct (osize_eqb (of_size o) (row_osize vs)); try easy. cbn [res_bind] in HW. destruct (items_segs b base items (of_list o)) as [l1| |] eqn:E; try easy. clear - O1 O3 E. rewrite <- O1 in O3. clear O1. revert l1 E O3. generalize (of_list o).
    induction items as [|d items IH]; intros [|o1 os] l1 E O3; try easy. cbn [items_segs] in E. destruct (dstr_enc b d) as [y| |] eqn:ED; try easy. cbn [res_bind] in E. destruct (items_segs b base items os) as [l2| |] eqn:EI; try easy.
    constructor; [now exists y|]. apply (IH os l2 EI). now injection O3.
  - destruct (oarr_enc b off (row_osize vs) items) as [[o y]| |] eqn:E; try easy. unfold oarr_enc in E. destruct (calc_body b _ items) as [[os body]| |] eqn:EC; try easy. clear - EC. revert os body EC. generalize (off + (len items + 1) * os_bytes (row_osize vs)).
    induction items as [|d items IH]; intros cur os body E; [constructor|]. cbn [calc_body] in E. destruct (dstr_enc b d) as [y| |] eqn:ED; try easy. cbn [res_bind] in E.
    destruct (calc_body b (aligned_offset cur (dstr_align d) + len y) items) as [[os' z]| |] eqn:EC; try easy. constructor; [now exists y|]. now apply (IH _ os' z EC).
Qed.
(** Programs that assign fields only. *)
Lemma modest_fields b g k vs oc bs bs' : row_ok dstr_good (RRow k vs oc) -> row_writes b (RRow k vs oc) -> fields_ok dstr_good (row_fields k) (g vs) -> (row_oarr k <> None -> row_osize (g vs) = row_osize vs) ->
  enc_fields b (row_fields k) vs = Ok bs -> enc_fields b (row_fields k) (g vs) = Ok bs' -> len bs' <= len bs -> modest b (fields_only g) (RRow k vs oc).
Proof.
  intros HR HW HG HS E E' HL. cbn [modest fields_only fl_vals fl_strs fl_calc]. split; [easy|]. destruct oc as [c|]; cbn [strings]; [|now exists bs, bs'].
  pose proof (writes_items b k vs c HR HW) as HI. cbn [row_ok] in HR. destruct HR as [HV HO]. destruct (row_oarr k) as [[off m]|] eqn:EK; [|easy]. specialize (HS ltac:(discriminate)). destruct HO as (O1 & O2 & O3).
  split; [easy|]. split; [easy|]. split; [easy|]. split.
  - clear - HI. induction HI as [|d l [y E] _ IH]; constructor; [|easy]. exists y, y. repeat (split; [easy|]). lia.
  - intros n HN.
    assert (forall vs', fields_ok dstr_good (row_fields k) vs' -> row_ok dstr_good (RRow k vs' (Some (mk_oarr None (oa_items c))))) as HB by (intros vs' HV'; cbn [row_ok]; rewrite EK; now split).
    apply (row_size_enc b dstr_good) in HN as (x & HE & HX); [|now apply HB|easy]. cbn [row_enc oa_items] in HE. rewrite E, EK in HE. cbn [res_bind] in HE.
    destruct (oarr_enc b off (row_osize vs) (oa_items c)) as [[o y]| |] eqn:EO; try easy. cbn [res_bind] in HE. apply Ok_inj in HE. subst x. exists (len (bs' ++ y)). split; [|rewrite len_app in *; lia].
    apply (row_size_enc b dstr_good); [now apply HB|easy|]. exists (bs' ++ y). split; [|easy]. cbn [row_enc oa_items]. rewrite E', EK, HS. cbn [res_bind]. now rewrite EO.
Qed.
Lemma assign_keys f : forall rows i, keys (assign_rows f i rows) = keys rows.
Proof. induction rows as [|[o r] rows IH]; intro i; [easy|]. cbn [assign_rows keys map fst] in *. f_equal. apply IH. Qed.
Lemma assign_len f : forall rows i, len (assign_rows f i rows) = len rows.
Proof. induction rows as [|[o r] rows IH]; intro i; [easy|]. cbn [assign_rows]. now rewrite !len_cons, IH. Qed.
Lemma assign_revised f : forall l rows i, Forall2 same_values l (map snd rows) -> Forall2 same_values (revised f i l) (map snd (assign_rows f i rows)).
Proof.
  induction l as [|r l IH]; intros [|[o r'] rows] i H; inversion H as [|? ? ? ? H1 H2]; subst; [constructor|]. cbn [snd map] in *. cbn [assign_rows map snd].
  apply (assign_same (f i)) in H1. specialize (IH rows (i + 1) H2). now destruct r as [k vs oc|]; cbn [revised]; constructor.
Qed.
Lemma modest_rows_same b f : forall l l' i, Forall2 same_values l l' -> modest_rows b f i l -> modest_rows b f i l'.
Proof. intros l l' i H. revert i. induction H as [|r r' l l' H1 _ IH]; intros i; [easy|]. cbn [modest_rows]. intros [M1 M2]. split; [now apply (modest_same b (f i) r)|now apply IH]. Qed.
Lemma revised_len f : forall l i, len (revised f i l) = len l.
Proof. induction l as [|r l IH]; intro i; [easy|]. destruct r; cbn [revised]; now rewrite !len_cons, IH. Qed.
Lemma assign_forall b f (P : N * row -> Prop) : (forall i o r, row_ok dstr_good r -> row_writes b r -> modest b (f i) r -> P (o, r) -> P (o, assign (f i) r)) ->
  forall rows i, Forall (fun x => row_ok dstr_good (snd x)) rows -> Forall (fun x => row_writes b (snd x)) rows -> modest_rows b f i (map snd rows) -> Forall P rows -> Forall P (assign_rows f i rows).
Proof.
  intros HP. induction rows as [|[o r] rows IH]; intros i H1 H2 H3 H4; [constructor|]. inversion H1; inversion H2; inversion H4; subst. cbn [map snd modest_rows assign_rows] in *. destruct H3.
  constructor; [now apply HP|now apply IH].
Qed.
Lemma assign_tidy b f : forall rows i lo hi, Forall (fun x => row_ok dstr_good (snd x)) rows -> Forall (fun x => row_writes b (snd x)) rows -> modest_rows b f i (map snd rows) -> tidy b lo rows hi -> tidy b lo (assign_rows f i rows) hi.
Proof.
  induction rows as [|[o r] rows IH]; intros i lo hi H1 H2 H3 HT; [easy|]. inversion H1 as [|? ? R1 R2]; inversion H2 as [|? ? W1 W2]; subst. cbn [map snd modest_rows assign_rows tidy] in *. destruct H3 as [M1 M2], HT as (T1 & n & T2 & T3).
  split; [easy|]. exists n. split; [now apply (modest_row b (f i) r)|now apply IH].
Qed.
(** ** Pages *)
Lemma assign_dpage b db ps f i h c : dpage_ok dstr_good db ps h c -> Forall (fun x => row_writes b (snd x)) (dc_rows c) -> modest_rows b f i (map snd (dc_rows c)) ->
  dpage_ok dstr_good db ps h (mk_dcontent (dc_header c) (dc_groups c) (assign_rows f i (dc_rows c))).
Proof.
  intros (P1 & P2 & P3 & P4 & P5 & P6 & P7 & P8 & P9 & P10 & P11) HW HM. unfold dpage_ok. cbn [dc_header dc_groups dc_rows]. repeat (split; [easy|]).
  split; [unfold sorted in *; now rewrite assign_keys|]. split; [now rewrite assign_len|]. split; [intro o; now rewrite assign_keys|].
  apply (assign_forall b); try easy.
  - intros j o r R1 R2 R3 [_ R4]. cbn [snd] in *. destruct (modest_row b (f j) r R1 R2 R3) as (Q1 & _ & _ & Q4). split; [easy|now apply Q4].
  - eapply Forall_impl; [|exact P11]. now intros x [].
Qed.
Lemma assign_sound b db ps f i p s g : page_consistent b db ps p -> page_writes b ps p -> graded b db ps g p -> like s p -> modest_rows b f i (sh_rows s) ->
  page_consistent b db ps (assign_page f i p) /\ page_writes b ps (assign_page f i p) /\ graded b db ps g (assign_page f i p) /\ like (revise f i s) (assign_page f i p).
Proof.
  intros HC HW HG HL HM. destruct p as [h [c|c]].
  2:{ cbn [assign_page pg_content]. repeat (split; [exact HC || exact HW || exact HG|]). destruct HL as (L1 & L2 & L3 & L4 & L5). unfold like. cbn [revise sh_type sh_next sh_free sh_slots sh_rows].
      cbn [rows_of_page pg_content] in *. inversion L5 as [E|]. cbn [revised]. repeat (split; [easy|]). constructor. }
  pose proof HL as (L1 & L2 & L3 & L4 & L5). cbn [rows_of_page pg_content pg_header] in *. pose proof (modest_rows_same b f _ _ i L5 HM) as HM'.
  unfold page_consistent, page_writes in HC, HW. cbn [pg_content pg_header] in HC, HW. destruct HC as [HO HT].
  assert (Forall (fun x => row_ok dstr_good (snd x)) (dc_rows c)) as HR. { destruct HO as (_ & _ & _ & _ & _ & _ & _ & _ & _ & _ & HO). eapply Forall_impl; [|exact HO]. now intros x []. }
  pose proof (assign_dpage b db ps f i h c HO HW HM') as HO'.
  assert (Forall (fun x => row_writes b (snd x)) (assign_rows f i (dc_rows c))) as HW'.
  { apply (assign_forall b); try easy. intros j o r R1 R2 R3 _. cbn [snd]. now apply (modest_row b (f j) r). }
  assert (page_consistent b db ps (assign_page f i (mk_page h (PData c)))) as HC'.
  { unfold page_consistent. cbn [assign_page pg_content pg_header]. split; [easy|]. destruct HT as (T1 & T2 & T3). split; [easy|]. split; [easy|]. cbn [dc_rows dc_groups]. now apply assign_tidy. }
  split; [exact HC'|]. split; [exact HW'|]. split.
  - destruct g; [exact I|now split|]. cbn [graded] in *. destruct HG as [(h0 & c0 & E & HA) _]. injection E as <- <-. split; [|exact HW']. eexists _, _. split; [reflexivity|]. cbn [pg_header].
    destruct HA as (A1 & A2 & A3 & A4 & A5 & A6). split; [exact HO'|]. split; [easy|]. split; [easy|]. cbn [dc_groups dc_rows]. split; [easy|]. split; [now apply assign_tidy|]. now rewrite assign_keys.
  - unfold like. cbn [assign_page pg_content pg_header rows_of_page revise sh_type sh_next sh_free sh_slots sh_rows dc_rows]. repeat (split; [easy|]). now apply assign_revised.
Qed.

(** ** Databases *)
Lemma assign_stores b d G A j f i s d1 q : stores b d G A -> A j = Some s -> G j <> GAny -> modest_rows b f i (sh_rows s) -> page_of b d j q -> loaded d d1 j q ->
  let d2 := set_page d1 j (assign_page f i q) in
  stores b d2 G (put A j (revise f i s)) /\ db_header d2 = db_header d /\ db_kind d2 = db_kind d.
Proof.
  intros HS EA HN HM HP HL. destruct (stores_sound b d G A j s q HS EA HN HP) as (S1 & S2 & S3 & S4). destruct (assign_sound b _ _ f i q s (G j) S1 S2 S3 S4 HM) as (T1 & T2 & T3 & T4).
  cbv zeta. now apply (change_stores b d G A j s (revise f i s) d1 q).
Qed.
Lemma delete_stores b d G A j i s d1 q p' : stores b d G A -> A j = Some s -> G j <> GAny -> page_of b d j q -> loaded d d1 j q -> delete_row b i q = Ok p' ->
  let d2 := set_page d1 j p' in
  stores b d2 G (put A j (take_out i s)) /\ db_header d2 = db_header d /\ db_kind d2 = db_kind d.
Proof.
  intros HS EA HN HP HL HD. destruct (stores_sound b d G A j s q HS EA HN HP) as (S1 & S2 & S3 & S4). destruct (delete_sound b _ _ i q s (G j) p' S1 S2 S3 S4 HD) as (T1 & T2 & T3 & T4).
  cbv zeta. now apply (change_stores b d G A j s (take_out i s) d1 q).
Qed.
Lemma path_put A last f i j s : A j = Some s -> forall n l, path A last n l -> path (put A j (revise f i s)) last n l.
Proof.
  intros EA n l H. induction H as [s0 E|n s0 l NE E HI HP IH].
  - destruct (last =? j) eqn:EJ; [apply (path_last _ _ (revise f i s))|apply (path_last _ _ s0)]; unfold put; now rewrite EJ.
  - destruct (n =? j) eqn:EJ.
    + assert (n = j) as -> by lia. rewrite EA in E. injection E as <-. apply (path_step _ _ j (revise f i s)); try easy. unfold put. now rewrite N.eqb_refl.
    + apply (path_step _ _ n s0); try easy. unfold put. now rewrite EJ.
Qed.
Lemma path_ge A last : forall n l, path A last n l -> Forall (fun x => n <= x) l.
Proof.
  intros n l H. induction H as [s E|n s l NE E HI HP IH]; (constructor; [lia|]); [constructor|]. eapply Forall_impl; [|exact IH]. cbv beta. intros; lia.
Qed.
Lemma put_rows A j s : forall l, ~ In j l -> flat_map (shelf_rows (put A j s)) l = flat_map (shelf_rows A) l.
Proof.
  induction l as [|x l IH]; intro H; [easy|]. cbn [flat_map]. rewrite IH by (intro; apply H; now right). f_equal. unfold shelf_rows, put. destruct (x =? j) eqn:E; [|easy]. exfalso. apply H. left. lia.
Qed.
Lemma modest_app b f : forall l l' i, modest_rows b f i (l ++ l') <-> modest_rows b f i l /\ modest_rows b f (i + len l) l'.
Proof.
  induction l as [|r l IH]; intros l' i; cbn [app modest_rows]; [now rewrite len_nil, N.add_0_r|]. rewrite IH. replace (i + len (r :: l)) with (i + 1 + len l) by (rewrite len_cons; lia). tauto.
Qed.
Lemma Forall2_len {X Y} (R : X -> Y -> Prop) l l' : Forall2 R l l' -> len l' = len l.
Proof. intro H. induction H; [easy|]. rewrite !len_cons. lia. Qed.
Lemma assign_n_stores b k f G : forall n i d it A j l, stores b d G A -> live d it -> it_next it = Some j -> it_off it <= j -> path A (it_last it) j l -> (length l < n)%nat ->
  Forall (fun x => G x <> GAny) l -> forallb (is_variant k) (flat_map (shelf_rows A) l) = true -> modest_rows b f i (flat_map (shelf_rows A) l) ->
  exists d', assign_n b k f n i d it = (d', Some (DOk tt)) /\ stores b d' G (revise_all f l i A) /\ db_header d' = db_header d /\ db_kind d' = db_kind d.
Proof.
  induction n as [|n IH]; intros i d it A j l HS HV HN HO HP HF HG HK HM; [lia|].
  assert (exists s l', l = j :: l' /\ A j = Some s) as (s & l' & -> & EA) by (inversion HP; subst; eauto).
  destruct (proj2 (proj2 HS) j s EA) as (p & HPO & _ & HLK). destruct (iter_next_page b d it j p HV HN HO HPO) as (d1 & it1 & E1 & HV1 & HLD & HO1 & HL1 & HN1).
  inversion HG as [|? ? G1 G2]; subst. cbn [flat_map] in HK, HM. unfold shelf_rows in HK at 1. unfold shelf_rows in HM at 1. rewrite EA in HK, HM. rewrite forallb_app in HK. apply andb_true_iff in HK as [K1 K2].
  apply modest_app in HM as [M1 M2]. destruct (assign_stores b d G A j f i s d1 p HS EA G1 M1 HPO HLD) as (S1 & S2 & S3). pose proof HLK as (_ & LN & _ & _ & LR).
  cbn [assign_n]. rewrite E1. rewrite (same_variants k _ _ LR), K1. rewrite (Forall2_len _ _ _ LR). cbn [revise_all]. rewrite EA. set (d2 := set_page d1 j (assign_page f i p)) in *.
  assert (live d2 it1) as HV2. { destruct HV1 as [V1 V2]. split; [easy|]. unfold d2, set_page. cbn [with_pages db_pages]. now rewrite len_set_nth. }
  inversion HP as [s0 E|? s0 l0 NE E HI HP']; subst.
  - rewrite N.eqb_refl in HN1. exists d2. split; [|now cbn [revise_all]]. destruct n as [|n]; [cbn in HF; lia|]. cbn [assign_n]. unfold iter_next. now rewrite HN1.
  - rewrite EA in E. injection E as <-. replace (j =? it_last it) with false in HN1 by lia. rewrite LN in HN1.
    assert (~ In j l') as HNI. { intro HX. apply path_ge in HP'. rewrite Forall_forall in HP'. apply HP' in HX. lia. }
    destruct (IH (i + len (sh_rows s)) d2 it1 (put A j (revise f i s)) (sh_next s) l') as (d' & X1 & X2 & X3 & X4); try easy; [lia|rewrite HL1; now apply path_put|cbn [length] in HF; lia|now rewrite put_rows|now rewrite put_rows|].
    exists d'. split; [exact X1|]. split; [exact X2|]. split; congruence.
Qed.
Lemma path_length A last : forall j l m, path A last j l -> (forall i s, A i = Some s -> i <= m) -> N.of_nat (length l) <= m - j + 1.
Proof.
  intros j l m H HB. induction H as [s E|n s l NE E HI HP IH]; [cbn; pose proof (HB _ _ E); lia|]. cbn [length]. assert (sh_next s <= m) as HX; [|lia].
  assert (exists s', A (sh_next s) = Some s') as [s' E'] by (inversion HP; subst; eauto). now apply (HB _ s').
Qed.
Lemma assign_all_stores b k f G P d A : stores b d G A -> act_ok b (db_header d) G P A (AAssignAll k f) ->
  exists d', assign_all b k f d = (d', Some (DOk tt)) /\ stores b d' G (revise_all f (P k) 0 A) /\ db_header d' = db_header d /\ db_kind d' = db_kind d.
Proof.
  intros HS (i & t & HT & HP & HG & HK & HM). assert (1 <= tb_first t) as H1.
  { assert (exists s', A (tb_first t) = Some s') as [s' E'] by (inversion HP; subst; eauto). destruct (proj2 (proj2 HS) _ _ E') as (p & [X _] & _). exact X. }
  unfold assign_all, iter_pages. rewrite HT. apply (assign_n_stores b k f G _ 0 d (iter_of d t) A (tb_first t) (P k)); try easy; try apply iter_of_live.
  assert (forall i s, A i = Some s -> i <= len (db_pages d)) as HB.
  { intros j s E. destruct (proj2 (proj2 HS) _ _ E) as (p & HX & _). apply page_of_range in HX. lia. }
  pose proof (path_length A _ _ _ _ HP HB) as HX. unfold len in HX. lia.
Qed.
(** After saving, the database in memory can be used further. *)
Lemma flush_stays b d d' G A : stores b d G A -> flush b d = DOk d' -> stores b d' G A /\ db_header d' = db_header d /\ db_kind d' = db_kind d.
Proof.
  intros (HS & HW & HA) HF. pose proof (savable_inside b d HS) as HI. pose proof (flush_bytes b d d' HS HF) as HBY. pose proof HS as (S0 & S1 & S2 & S3 & S4).
  assert (db_header d' = db_header d /\ db_kind d' = db_kind d /\ db_pages d' = db_pages d) as (D1 & D2 & D3).
  { unfold flush in HF. destruct (db_write b d (db_io d, 0)) as [[io z]| |]; try easy. now injection HF as <-. }
  split; [|now split]. split; [|split].
  - unfold savable. rewrite D1, D2, D3. now repeat (split; [easy|]).
  - rewrite D1, D3. exact HW.
  - intros i s E. destruct (HA i s E) as (p & P1 & P2 & P3). destruct P2 as [[M1 M2]|P2].
    + exists p. assert (in_memory d' i p) as M by (unfold in_memory; now rewrite D3). split; [destruct M as [M0 M]; split; [easy|now left]|]. split; [|easy]. left. rewrite D1, D2. now split.
    + pose proof P2 as (C1 & C2 & C3). set (ps := dh_page_size (db_header d)) in *.
      assert (forall io, bytes_ok io -> (forall x, i * ps <= x -> x < (i + 1) * ps -> x < len (db_io d') -> getN io x = getN (db_io d') x) ->
        exists p2 q, rd_page b (rd_dstr b) ps (db_kind d) io (i * ps) = Ok (p2, q) /\ page_kept p p2 /\ graded b (db_kind d) ps (G i) p2) as HR.
      { intros io HBI HIO. apply C3; [easy|]. fold ps. intros x X1 X2 X3. assert (getN (db_io d') x = getN (db_io d) x) as EX.
        { apply (flush_frame b d d'); try easy. unfold unloaded_byte. fold ps. split; [nia|]. assert (x / ps = i) as ->; [|congruence].
          symmetry. apply (N.div_unique x ps i (x - i * ps)); nia. }
        rewrite HIO; [easy|easy|easy|]. destruct (getN_lt_Some (db_io d) x X3) as [y EY]. rewrite EY in EX. now apply getN_Some_lt in EX. }
      destruct (HR (db_io d')) as (q & z & R & Q & QG); [easy|easy|]. exists q. split; [|split; [right|now apply (like_kept s p)]].
      * split; [easy|]. right. split; [now rewrite D3|]. destruct S1 as (X1 & _ & X3 & _). unfold is_u32 in *. pose proof C2 as C2'. apply getN_Some_lt in C2'. fold ps in X1. rewrite read_page_eq by (rewrite ?D1; fold ps; lia || easy). rewrite D1, D2. fold ps. now rewrite R.
      * unfold self_contained. rewrite D1, D2, D3. fold ps. split; [easy|]. split; [easy|]. intros io HBI HIO. destruct (HR io HBI HIO) as (p2 & z2 & R2 & Q2 & G2). exists p2, z2. split; [easy|]. split; [|easy].
        apply (page_kept_trans _ p); [now apply page_kept_sym|easy].
Qed.
(** ** Programs *)
Lemma does_stores b d a d' G P A : stores b d G A -> act_ok b (db_header d) G P A a -> does b d a d' -> stores b d' G (act_work P A a) /\ db_header d' = db_header d /\ db_kind d' = db_kind d.
Proof.
  intros HS HA HD. destruct HD as [j ops d1 p p' HL HR|j f d1 p HL|k f d1 HL|j i d1 p p' HL HR|d1 HF]; cbn [act_ok act_work] in *.
  - now apply (edit_stores b d G A j ops d1 p).
  - destruct HA as (s & E & HG & HM). rewrite E. destruct (proj2 (proj2 HS) j s E) as (q & HPO & _). pose proof (load_of b d j q HPO) as EL. rewrite HL in EL. injection EL as <-.
    apply (assign_stores b d G A j f 0 s d1 p); try easy. pose proof (page_of_range b d j p HPO) as [HJ _]. now apply load_effect in HL as [HLD _].
  - destruct (assign_all_stores b k f G P d A HS HA) as (d' & E & H1 & H2 & H3). rewrite HL in E. injection E as <-. now split.
  - destruct HA as [[s E] HG]. rewrite E. destruct (proj2 (proj2 HS) j s E) as (q & HPO & _). pose proof (load_of b d j q HPO) as EL. rewrite HL in EL. injection EL as <-.
    apply (delete_stores b d G A j i s d1 p); try easy. pose proof (page_of_range b d j p HPO) as [HJ _]. now apply load_effect in HL as [HLD _].
  - now apply (flush_stays b d).
Qed.
Lemma acts_stores b : forall d l d', acts b d l d' -> forall G P A, stores b d G A -> acts_ok b (db_header d) G P A l ->
  stores b d' G (acts_work P A l) /\ db_header d' = db_header d /\ db_kind d' = db_kind d.
Proof.
  intros d l d' H. induction H as [d|d a d1 l d2 HD _ IH]; intros G P A HS HA; [easy|]. cbn [acts_ok] in HA. destruct HA as [A1 A2]. destruct (does_stores b d a d1 G P A HS A1 HD) as (S1 & S2 & S3).
  destruct (IH G P (act_work P A a) S1) as (T1 & T2 & T3); [now rewrite S2|]. split; [exact T1|]. split; congruence.
Qed.
Lemma program_stores b k io l io' d G P A : db_open io k = DOk d -> stores b d G A -> acts_ok b (db_header d) G P A l -> program b k io l io' ->
  exists d', db_open io' k = DOk d' /\ db_header d' = db_header d /\ stores b d' G (acts_work P A l).
Proof.
  intros HO HS HA (d0 & d1 & d2 & E0 & HE & HF & <-). rewrite HO in E0. injection E0 as <-. destruct (acts_stores b d l d1 HE G P A HS HA) as (S1 & S2 & S3).
  destruct (flush_stores b d1 d2 G _ S1 HF) as (d3 & F1 & F2 & F3 & F4). exists d3. rewrite S3, (open_kind io k d HO) in F1. split; [easy|]. split; [congruence|easy].
Qed.
Lemma acts_ok_app b h G P : forall l A l', acts_ok b h G P A (l ++ l') <-> acts_ok b h G P A l /\ acts_ok b h G P (acts_work P A l) l'.
Proof. induction l as [|a l IH]; intros A l'; cbn [app acts_ok]; [cbn; tauto|]. rewrite IH. change (acts_work P A (a :: l)) with (acts_work P (act_work P A a) l). tauto. Qed.
Lemma acts_work_app P A l l' : acts_work P A (l ++ l') = acts_work P (acts_work P A l) l'.
Proof. unfold acts_work. apply fold_left_app. Qed.
Lemma programs_stores b k : forall io ls io', programs b k io ls io' -> forall d G P A, db_open io k = DOk d -> stores b d G A -> acts_ok b (db_header d) G P A (concat ls) ->
  exists d', db_open io' k = DOk d' /\ db_header d' = db_header d /\ stores b d' G (acts_work P A (concat ls)).
Proof.
  intros io ls io' H. induction H as [io|io l io1 ls io2 HS1 _ IH]; intros d G P A HO HS HA; [now exists d|]. cbn [concat] in HA |- *. apply acts_ok_app in HA as [A1 A2].
  destruct (program_stores b k io l io1 d G P A HO HS A1 HS1) as (d1 & O1 & O2 & O3). destruct (IH d1 G P (acts_work P A l) O1 O3) as (d' & P1 & P2 & P3); [now rewrite O2|].
  exists d'. split; [easy|]. split; [congruence|]. now rewrite acts_work_app.
Qed.
(** ** Progress *)
Lemma act_runs b d G P A a : stores b d G A -> dh_page_size (db_header d) <= 4096 -> act_ok b (db_header d) G P A a -> exists d', does b d a d'.
Proof.
  intros HS HP HA. destruct a as [j ops|j f|k f|j i|].
  - destruct (edit_runs b d G A j ops HS HP HA) as (d1 & p & p' & HL & HR). eexists. now apply (does_insert b d j ops d1 p p').
  - destruct HA as (s & E & HG & HM). destruct (proj2 (proj2 HS) j s E) as (q & HPO & _). pose proof (load_of b d j q HPO) as EL. destruct (load_page b d j) as [d1 r] eqn:EL1. cbn [snd] in EL. subst r.
    eexists. now apply (does_assign b d j f d1 q).
  - destruct (assign_all_stores b k f G P d A HS HA) as (d' & E & _). exists d'. now apply does_all.
  - destruct HA as [[s E] HG]. destruct (proj2 (proj2 HS) j s E) as (q & HPO & _). pose proof (load_of b d j q HPO) as EL. destruct (load_page b d j) as [d1 r] eqn:EL1. cbn [snd] in EL. subst r.
    destruct (stores_sound b d G A j s q HS E HG HPO) as (S1 & _). destruct (delete_ok b _ _ i q S1) as [p' HD]. eexists. now apply (does_delete b d j i d1 q p').
  - destruct (stores_flush b d G A HS) as [d' HF]. exists d'. now apply does_save.
Qed.
Lemma acts_run b G P : forall l d A, stores b d G A -> dh_page_size (db_header d) <= 4096 -> acts_ok b (db_header d) G P A l -> exists d', acts b d l d'.
Proof.
  induction l as [|a l IH]; intros d A HS HP HA; [exists d; constructor|]. destruct HA as [A1 A2]. destruct (act_runs b d G P A a HS HP A1) as [d1 HD].
  destruct (does_stores b d a d1 G P A HS A1 HD) as (S1 & S2 & _). destruct (IH d1 (act_work P A a) S1) as [d2 H2]; [now rewrite S2|now rewrite S2|]. exists d2. now apply (acts_cons b d a d1).
Qed.
Lemma program_runs b k io l d G P A : db_open io k = DOk d -> stores b d G A -> dh_page_size (db_header d) <= 4096 -> acts_ok b (db_header d) G P A l -> exists io', program b k io l io'.
Proof.
  intros HO HS HP HA. destruct (acts_run b G P l d A HS HP HA) as [d1 HE]. destruct (acts_stores b d l d1 HE G P A HS HA) as (S1 & _). destruct (stores_flush b d1 G _ S1) as [d2 HF].
  exists (db_io d2), d, d1, d2. repeat (split; [easy|]). easy.
Qed.
Lemma programs_run b k G P : forall ls io d A, db_open io k = DOk d -> stores b d G A -> dh_page_size (db_header d) <= 4096 -> acts_ok b (db_header d) G P A (concat ls) -> exists io', programs b k io ls io'.
Proof.
  induction ls as [|l ls IH]; intros io d A HO HS HP HA; [exists io; constructor|]. cbn [concat] in HA. apply acts_ok_app in HA as [A1 A2].
  destruct (program_runs b k io l d G P A HO HS HP A1) as [io1 H1]. destruct (program_stores b k io l io1 d G P A HO HS A1 H1) as (d1 & O1 & O2 & O3).
  destruct (IH io1 d1 (acts_work P A l) O1 O3) as [io2 H2]; [now rewrite O2|now rewrite O2|]. exists io2. now apply (programs_cons b k io l io1).
Qed.
