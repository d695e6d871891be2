(** * Writing and reading whole pages *)
From Coq Require Import NArith ZArith List Bool Lia Sorted.
From Coq Require Import ZifyBool ZifyNat ZifyN.
From Verif Require Import Base BaseFacts Segs Str Schema SchemaFacts StrGood Oa OaFacts Rows RowFacts RowSpec EnumFacts Page BitFacts PageFacts.
Import ListNotations.
Ltac Zify.zify_post_hook ::= Z.div_mod_to_equations.
Open Scope N_scope.

Lemma Forall2_imp {A B} (P Q : A -> B -> Prop) l1 l2 : (forall x y, P x y -> Q x y) -> Forall2 P l1 l2 -> Forall2 Q l1 l2.
Proof. intros HI H. induction H; constructor; auto. Qed.

(** ** Maps *)
Definition keys {A} (m : list (N * A)) : list N := map fst m.
Definition sorted {A} (m : list (N * A)) : Prop := StronglySorted N.lt (keys m).

Lemma map_get_insert {A} k (v : A) k' m : map_get k' (map_insert k v m) = if k' =? k then Some v else map_get k' m.
Proof.
  induction m as [|[q w] m IH]; cbn [map_insert map_get]; [reflexivity|].
  destruct (k <? q) eqn:E1; [reflexivity|]. destruct (k =? q) eqn:E2; cbn [map_get].
  - apply N.eqb_eq in E2. subst. now destruct (k' =? q).
  - rewrite IH. destruct (k' =? q) eqn:E3; [|reflexivity]. now replace (k' =? k) with false by lia.
Qed.
Lemma keys_insert {A} k (v : A) m x : In x (keys (map_insert k v m)) <-> x = k \/ In x (keys m).
Proof.
  unfold keys. induction m as [|[q w] m IH]; cbn; [intuition|]. destruct (k <? q) eqn:E1; [cbn; intuition|].
  destruct (k =? q) eqn:E2; cbn; [|rewrite IH; intuition]. apply N.eqb_eq in E2. subst. intuition.
Qed.
Lemma sorted_insert {A} k (v : A) m : sorted m -> sorted (map_insert k v m).
Proof.
  unfold sorted. induction m as [|[q w] m IH]; intro H; [repeat constructor|].
  cbn [keys map fst] in H. inversion H as [|? ? H1 H2]; subst. cbn [map_insert].
  destruct (k <? q) eqn:E1.
  - cbn [keys map fst]. constructor; [easy|]. constructor; [lia|]. eapply Forall_impl; [|exact H2]. cbv beta. intros; lia.
  - destruct (k =? q) eqn:E2.
    + apply N.eqb_eq in E2. subst. exact H.
    + cbn [keys map fst]. constructor; [now apply IH|]. apply Forall_forall. intros x Hx. apply keys_insert in Hx as [->|Hx]; [lia|].
      rewrite Forall_forall in H2. now apply H2.
Qed.
Lemma map_get_none {A} k (m : list (N * A)) : map_get k m = None <-> ~ In k (keys m).
Proof.
  unfold keys. induction m as [|[q w] m IH]; cbn; [intuition|]. destruct (k =? q) eqn:E; [|rewrite IH; split; intros; intuition; lia].
  split; [easy|]. intro H. exfalso. apply H. left. lia.
Qed.
Lemma map_get_some {A} k (m : list (N * A)) v : map_get k m = Some v -> In (k, v) m.
Proof.
  induction m as [|[q w] m IH]; cbn; [easy|]. destruct (k =? q) eqn:E; [|intro; right; now apply IH]. intros [= ->]. left. f_equal; lia.
Qed.
Lemma map_get_in {A} k (m : list (N * A)) v : sorted m -> In (k, v) m -> map_get k m = Some v.
Proof.
  unfold sorted, keys. induction m as [|[q w] m IH]; cbn; [easy|]. intro H. inversion H as [|? ? H1 H2]; subst. intros [[= -> ->]|HI].
  - now rewrite N.eqb_refl.
  - rewrite Forall_forall in H2. assert (q < k) by (apply H2; apply (in_map fst _ _ HI)). replace (k =? q) with false by lia. now apply IH.
Qed.
Lemma sorted_ext {A} : forall (m1 m2 : list (N * A)), sorted m1 -> sorted m2 -> (forall k, map_get k m1 = map_get k m2) -> m1 = m2.
Proof.
  unfold sorted, keys. induction m1 as [|[q w] m1 IH]; intros m2 H1 H2 HE.
  - destruct m2 as [|[q w] m2]; [easy|]. specialize (HE q). cbn in HE. now rewrite N.eqb_refl in HE.
  - destruct m2 as [|[q2 w2] m2]. { specialize (HE q). cbn in HE. now rewrite N.eqb_refl in HE. }
    cbn in H1, H2. inversion H1 as [|? ? A1 A2]; subst. inversion H2 as [|? ? B1 B2]; subst. rewrite Forall_forall in A2, B2.
    assert (q = q2).
    { pose proof (HE q) as Eq. pose proof (HE q2) as Eq2. cbn in Eq, Eq2. rewrite N.eqb_refl in Eq, Eq2.
      destruct (q =? q2) eqn:E; [lia|]. rewrite N.eqb_sym, E in Eq2.
      symmetry in Eq. apply map_get_some in Eq. apply map_get_some in Eq2.
      apply (in_map fst) in Eq. apply (in_map fst) in Eq2. specialize (B2 _ Eq). specialize (A2 _ Eq2). cbn in *. lia. }
    subst q2. f_equal.
    + specialize (HE q). cbn in HE. rewrite N.eqb_refl in HE. congruence.
    + apply IH; try easy. intro k. specialize (HE k). cbn in HE. destruct (k =? q) eqn:E; [|easy]. apply N.eqb_eq in E. subst k.
      transitivity (@None A); [|symmetry]; apply map_get_none; intro HI; [specialize (A2 _ HI)|specialize (B2 _ HI)]; lia.
Qed.

(** ** The rows of a page *)
Fixpoint rows_segs (b : build) (base : N) (rows : list (N * row)) : res (list seg * list (N * row)) :=
  match rows with
  | [] => Ok ([], [])
  | (o, r) :: rest =>
    do! (l, r', _) <- row_segs b r (base + o); do! (l2, rest') <- rows_segs b base rest; Ok (l ++ l2, (o, r') :: rest')
  end.
Lemma wr_rows_at_segs b base : forall rows buf,
  wr_rows_at b base rows (buf, base) = (do! (l, _) <- rows_segs b base rows; Ok (write_segs buf l, base)).
Proof.
  induction rows as [|[o r] rows IH]; intro buf; [reflexivity|]. cbn [wr_rows_at rows_segs wr_seek res_bind].
  rewrite row_write_segs. destruct (row_segs b r (base + o)) as [[[l r'] p]| |]; [|easy|easy]. cbn [res_bind wr_seek]. rewrite IH.
  destruct (rows_segs b base rows) as [[l2 rest']| |]; [|easy|easy]. cbn [res_bind]. now rewrite write_segs_app.
Qed.
Lemma rows_segs_spec b base : forall rows l rows', rows_segs b base rows = Ok (l, rows') ->
  Forall2 (fun x y => fst x = fst y /\ exists ls p, row_segs b (snd x) (base + fst x) = Ok (ls, snd y, p) /\ incl ls l) rows rows'.
Proof.
  induction rows as [|[o r] rows IH]; intros l rows' H; cbn [rows_segs] in H; [injection H as <- <-; constructor|].
  destruct (row_segs b r (base + o)) as [[[ls r'] p]| |] eqn:E; [|easy|easy]. cbn [res_bind] in H.
  destruct (rows_segs b base rows) as [[l2 rest']| |] eqn:E2; [|easy|easy]. cbn [res_bind] in H. injection H as <- <-.
  constructor.
  - cbn [fst snd]. split; [easy|]. exists ls, p. split; [easy|]. now apply incl_appl, incl_refl.
  - eapply Forall2_imp; [|now apply IH]. cbv beta. intros x y (A & ls' & p' & B & C). split; [easy|]. exists ls', p'. split; [easy|].
    now apply incl_appr.
Qed.
Lemma rows_segs_keys b base rows l rows' : rows_segs b base rows = Ok (l, rows') -> keys rows' = keys rows.
Proof.
  intro H. apply rows_segs_spec in H. unfold keys. induction H as [|x y l1 l2 [E _] H IH]; [easy|]. cbn. now rewrite IH, E.
Qed.

Lemma rd_rows_at_ok rs pt base buf (F : N -> row) : forall os acc,
  (forall o, In o os -> exists p, rd_row rs pt buf (base + o) = Ok (F o, p)) ->
  exists m, rd_rows_at rs pt base os acc buf = Ok m /\ (sorted acc -> sorted m) /\
    forall k, map_get k m = if mem k os then Some (F k) else map_get k acc.
Proof.
  induction os as [|o os IH]; intros acc H; [now exists acc|].
  destruct (H o) as [p E]; [now left|]. destruct (IH (map_insert o (F o) acc)) as (m & R & S & G). { intros q Hq. apply H. now right. }
  exists m. cbn [rd_rows_at]. rewrite E. split; [easy|]. split; [intro; now apply S, sorted_insert|].
  intro k. rewrite G, map_get_insert. unfold mem. cbn [existsb]. destruct (k =? o) eqn:EQ; cbn [orb]; [|easy].
  apply N.eqb_eq in EQ. subst. now destruct (existsb (N.eqb o) os).
Qed.
Lemma rd_rows_at_inv rs pt base buf : forall os acc m,
  rd_rows_at rs pt base os acc buf = Ok m ->
  (sorted acc -> sorted m) /\
  (forall k r, map_get k m = Some r -> (In k os /\ exists p, rd_row rs pt buf (base + k) = Ok (r, p)) \/ (~ In k os /\ map_get k acc = Some r)) /\
  (forall k, In k os \/ In k (keys acc) -> In k (keys m)).
Proof.
  induction os as [|o os IH]; intros acc m H; cbn [rd_rows_at] in H.
  - injection H as <-. split; [easy|]. split; [intros; right; auto|]. now intros k [|].
  - destruct (rd_row rs pt buf (base + o)) as [[r p]| |] eqn:E; [|easy|easy]. apply IH in H as (S & G & K).
    split; [intro; now apply S, sorted_insert|]. split.
    + intros k r' Hk. apply G in Hk as [[HI HR]|[HI HR]]; [left; split; [now right|easy]|].
      rewrite map_get_insert in HR. destruct (k =? o) eqn:EQ.
      * apply N.eqb_eq in EQ. subst. injection HR as <-. left. split; [now left|]. now exists p.
      * right. split; [|easy]. intros [->|HI2]; [lia|easy].
    + intros k HK. apply K. rewrite keys_insert. cbn in HK. intuition.
Qed.

Lemma rows_wr b rs Q base buf pt rows l rows' os :
  str_wr b rs Q buf -> sorted rows -> Forall (fun x => row_ok Q (snd x) /\ row_ptype_ok pt (snd x)) rows ->
  rows_segs b base rows = Ok (l, rows') -> segs_in buf l -> (forall o, In o os <-> In o (keys rows)) ->
  rd_rows_at rs pt base os [] buf = Ok rows'.
Proof.
  intros HS HO HR HE HI HK. pose proof (rows_segs_keys _ _ _ _ _ HE) as EK. apply rows_segs_spec in HE.
  assert (sorted rows') as HO' by (unfold sorted in *; now rewrite EK).
  set (F := fun k => match map_get k rows' with Some r => r | None => RUnknown end).
  destruct (rd_rows_at_ok rs pt base buf F os []) as (m & R & S & G).
  - intros o Ho. apply HK in Ho. unfold F. rewrite <- EK in Ho.
    destruct (map_get o rows') as [r'|] eqn:EG; [|now apply map_get_none in EG].
    apply map_get_some in EG. clear -HS HR HE HI EG. induction HE as [|[o1 x] [o2 y] l1 l2 (E1 & ls & p & E2 & E3) HE IH]; [easy|].
    inversion HR as [|? ? [R1 R2] R3]; subst. destruct EG as [EG|EG]; [|now apply IH].
    injection EG as -> ->. cbn [fst snd] in *. subst o1. apply (row_wr b rs Q x buf (base + o) ls r' p pt); try easy.
    unfold segs_in in *. rewrite Forall_forall in *. intros s Hs. now apply HI, E3.
  - rewrite R. f_equal. apply sorted_ext; [apply S; constructor|easy|]. intro k. rewrite G. unfold F.
    destruct (mem k os) eqn:EM.
    + apply mem_in in EM. apply HK in EM. rewrite <- EK in EM. destruct (map_get k rows') eqn:EG; [easy|]. now apply map_get_none in EG.
    + symmetry. apply map_get_none. rewrite EK, <- HK. intro HM. apply mem_in in HM. congruence.
Qed.

Definition first_int (k : rkind) : bool :=
  match row_fields k with (FInt _ _ | FMagic _ _ _ | FEnum _ _ _ | FEnumF _ _ _) :: _ => true | _ => false end.
Lemma rd_row_pos rs pt buf pos r p : bytes_ok buf -> rd_row rs pt buf pos = Ok (r, p) -> pos <= len buf \/ r = RUnknown.
Proof.
  intros HB H. destruct pt as [k|c]; cbn [rd_row] in H; [|right; now injection H as <- <-]. left.
  apply bind_inv in H as (vs & p1 & R & _). assert (first_int k = true) as HF by now destruct k.
  pose proof (row_fields_wf k) as HW. unfold first_int in HF. destruct (row_fields k) as [|f fs]; [easy|]. cbn [rd_fields] in R.
  apply bind_inv in R as (v & p2 & R & _). cbn [fields_wfb forallb] in HW. apply andb_true_iff in HW as [HW _].
  assert (forall e n x q, n <> 0%nat -> rd_int e n buf pos = Ok (x, q) -> pos <= len buf) as HX.
  { intros e n x q Hn RR. apply rd_int_inv in RR as (_ & HH & _); try easy. apply has_len in HH. lia. }
  destruct f as [e n|e n m|e n codes|e n codes|n|]; try easy; cbn [rd_field field_wfb] in *; apply bind_inv in R as (x & q & R & _);
    apply (HX e n x q); try easy; lia.
Qed.
Lemma rows_rw b rs Q base buf pt os rows :
  bytes_ok buf -> str_rw b rs Q buf -> rd_rows_at rs pt base os [] buf = Ok rows ->
  sorted rows /\ Forall (fun x => row_ok Q (snd x) /\ row_ptype_ok pt (snd x)) rows /\ (forall o, In o os <-> In o (keys rows)) /\
  exists l, rows_segs b base rows = Ok (l, rows) /\ segs_in buf l.
Proof.
  intros HB HS H. apply rd_rows_at_inv in H as (S & G & K). assert (sorted rows) as HO by (apply S; constructor). split; [easy|].
  assert (forall k r, In (k, r) rows -> In k os /\ exists p, rd_row rs pt buf (base + k) = Ok (r, p)) as HG.
  { intros k r HI. apply map_get_in in HI; [|easy]. apply G in HI as [HI|[_ HI]]; easy. }
  assert (forall k r, In (k, r) rows -> row_ok Q r /\ row_ptype_ok pt r /\ exists l p', row_segs b r (base + k) = Ok (l, r, p') /\ segs_in buf l) as HA.
  { intros k r HI. apply HG in HI as (_ & p & R). destruct (rd_row_pos _ _ _ _ _ _ HB R) as [HP| ->].
    - apply (row_rw b rs Q r buf _ p pt); easy.
    - destruct pt as [k0|c0]; [|split; [exact I|]; split; [exact I|]; exists [], (base + k); split; [easy|constructor]].
      cbn [rd_row] in R. apply bind_inv in R as (vs & p1 & _ & R). destruct (row_oarr k0) as [[off n]|]; [|now apply ret_inv in R].
      apply bind_inv in R as (c & p2 & _ & R). now apply ret_inv in R. }
  split. { apply Forall_forall. intros [k r] HI. cbn. now destruct (HA k r HI) as (A & B & _). }
  split. { intro o. split; [intro Ho; apply K; now left|]. intro Ho. unfold keys in Ho. apply in_map_iff in Ho as ([k r] & <- & HI). now apply HG in HI. }
  clear -HA. induction rows as [|[o r] rows IH]; [exists []; split; [easy|constructor]|].
  destruct IH as (l2 & E2 & I2); [intros; apply HA; now right|]. destruct (HA o r) as (_ & _ & l & p' & E & I1); [now left|].
  exists (l ++ l2). cbn [rows_segs]. rewrite E. cbn [res_bind]. rewrite E2. cbn [res_bind]. split; [easy|]. apply Forall_app. now split.
Qed.

(** ** Data pages *)
Definition hdr_bytes (b : build) (h : phdr) (c : dcontent) : res (list N) :=
  do! hb <- phdr_enc b h; do! dh <- enc_fields b dhdr_fields (dc_header c); Ok (hb ++ dh).
(** All pieces a data page at [pos] consists of, and the rows with explicit offsets. *)
Definition dpage_segs (b : build) (ps pos : N) (h : phdr) (c : dcontent) : res (list seg * list (N * row)) :=
  do! hb <- hdr_bytes b h c;
  do! (l, rows') <- rows_segs b (pos + 40) (dc_rows c);
  Ok ((pos, hb) :: groups_segs (dc_groups c) (pos + ps) ++ l, rows').

(** Consistent data pages. *)
Definition dpage_ok (Q : dstr -> Prop) (db : dbtype) (ps : N) (h : phdr) (c : dcontent) : Prop :=
  40 <= ps /\ ps < 2 ^ 32 /\ phdr_ok db h /\ is_index_page (ph_flags h) = false /\ fields_ok no_q dhdr_fields (dc_header c) /\
  len (dc_groups c) = num_row_groups (ph_counts h) /\ Forall rgroup_ok (dc_groups c) /\
  sorted (dc_rows c) /\ len (dc_rows c) = c_valid (ph_counts h) /\
  (forall o, In o (keys (dc_rows c)) <-> In o (flat_map present_offsets (dc_groups c))) /\
  Forall (fun x => row_ok Q (snd x) /\ row_ptype_ok (ph_type h) (snd x)) (dc_rows c).

Lemma page_heap_ok b ps : 40 <= ps -> page_heap_size b ps = Ok (ps - 40).
Proof. intro H. unfold page_heap_size. rewrite wsub_ok by lia. cbn [res_bind]. rewrite wsub_ok by lia. f_equal. lia. Qed.
Lemma hdr_bytes_ok db b h c :
  phdr_ok db h -> fields_ok no_q dhdr_fields (dc_header c) ->
  exists hb dh, phdr_enc b h = Ok hb /\ len hb = 32 /\ enc_fields b dhdr_fields (dc_header c) = Ok dh /\ len dh = 8 /\ hdr_bytes b h c = Ok (hb ++ dh).
Proof.
  intros H1 H2. destruct (phdr_enc_ok db b h H1) as (hb & E1 & L1). destruct (fields_enc_size b no_q dhdr_fields (dc_header c)) as (dh & E2 & L2); try easy.
  exists hb, dh. repeat (split; [easy|]). unfold hdr_bytes. rewrite E1. cbn [res_bind]. rewrite E2. reflexivity.
Qed.

Lemma dpage_write_segs db b ps h c buf pos :
  40 <= ps -> phdr_ok db h -> fields_ok no_q dhdr_fields (dc_header c) -> Forall rgroup_ok (dc_groups c) ->
  36 * len (dc_groups c) <= pos + ps ->
  page_write b ps (mk_page h (PData c)) (buf, pos) = (do! (l, _) <- dpage_segs b ps pos h c; Ok (write_segs buf l, pos + ps)).
Proof.
  intros HP H1 H2 HG HL. destruct (hdr_bytes_ok db b h c H1 H2) as (hb & dh & E1 & L1 & E2 & L2 & E3).
  unfold page_write, dpage_segs. cbn [pg_header pg_content]. rewrite E1, E3. cbn [res_bind wr_bytes]. unfold dcontent_write. rewrite E2. cbn [res_bind wr_bytes].
  rewrite page_heap_ok by easy. cbn [res_bind snd wr_seek].
  replace (pos + len hb + len dh + (ps - 40)) with (pos + ps) by lia.
  rewrite groups_write_eq by easy. cbn [res_bind wr_seek]. replace (pos + len hb + len dh) with (pos + 40) by lia. rewrite wr_rows_at_segs.
  destruct (rows_segs b (pos + 40) (dc_rows c)) as [[l rows']| |]; [|easy|easy]. cbn [res_bind wr_seek].
  cbn [write_segs]. now rewrite write_segs_app, write_at_app.
Qed.
Lemma dpage_write_inv db b ps h c buf pos s :
  40 <= ps -> phdr_ok db h -> fields_ok no_q dhdr_fields (dc_header c) -> Forall rgroup_ok (dc_groups c) ->
  page_write b ps (mk_page h (PData c)) (buf, pos) = Ok s -> 36 * len (dc_groups c) <= pos + ps.
Proof.
  intros HP H1 H2 HG HW. destruct (hdr_bytes_ok db b h c H1 H2) as (hb & dh & E1 & L1 & E2 & L2 & E3).
  unfold page_write in HW. cbn [pg_header pg_content] in HW. rewrite E1 in HW. cbn [res_bind wr_bytes] in HW. unfold dcontent_write in HW. rewrite E2 in HW. cbn [res_bind wr_bytes] in HW.
  rewrite page_heap_ok in HW by easy. cbn [res_bind snd wr_seek] in HW.
  replace (pos + len hb + len dh + (ps - 40)) with (pos + ps) in HW by lia.
  destruct (wr_all (map rgroup_write (dc_groups c)) _) as [s3| |] eqn:E; [|easy|easy]. now apply groups_write_inv in E.
Qed.

Definition page_same (rows' : list (N * row)) (h : phdr) (c : dcontent) (p : page) : Prop :=
  exists gs', p = mk_page h (PData (mk_dcontent (dc_header c) gs' rows')) /\ Forall2 rg_same (dc_groups c) gs'.

Lemma groups_same_present gs gs' : Forall rgroup_ok gs -> Forall2 rg_same gs gs' -> flat_map present_offsets gs' = flat_map present_offsets gs.
Proof.
  intros HG H. induction H as [|g g' l l' H1 H2 IH]; [easy|]. inversion HG; subst. cbn [flat_map]. now rewrite (rg_same_ok g g'), IH.
Qed.
Lemma dpage_wr b rs Q db ps h c buf pos l rows' :
  str_wr b rs Q buf -> dpage_ok Q db ps h c -> 36 * len (dc_groups c) <= pos + ps ->
  dpage_segs b ps pos h c = Ok (l, rows') -> segs_in buf l ->
  exists p, rd_page b rs ps db buf pos = Ok (p, pos + ps) /\ page_same rows' h c p.
Proof.
  intros HS (P1 & P2 & P3 & P4 & P5 & P6 & P7 & P8 & P9 & P10 & P11) HL HE HI.
  destruct (hdr_bytes_ok db b h c P3 P5) as (hb & dh & E1 & L1 & E2 & L2 & E3).
  unfold dpage_segs in HE. rewrite E3 in HE. cbn [res_bind] in HE.
  destruct (rows_segs b (pos + 40) (dc_rows c)) as [[lr rows0]| |] eqn:ER; [|easy|easy]. cbn [res_bind] in HE. injection HE as <- <-.
  inversion HI as [|? ? I1 I2]; subst. cbn [fst snd] in I1. apply Forall_app in I2 as [I2 I3]. apply has_app in I1 as [I0 I1]. rewrite L1 in I1.
  destruct (groups_wr (dc_groups c) buf (pos + ps)) as (gs' & RG & HGS); try easy.
  exists (mk_page h (PData (mk_dcontent (dc_header c) gs' rows0))). split; [|now exists gs'].
  unfold rd_page. eapply bind_ok; [eapply phdr_wr; eassumption|]. rewrite P4.
  eapply bind_ok; [|reflexivity]. unfold rd_dcontent.
  eapply bind_ok. { apply (fields_wr b no_rs no_q); [reflexivity|now apply no_rs_wr|exact P5|exact E2|exact I1]. }
  rewrite L2. eapply bind_ok. { unfold lift. rewrite page_heap_ok by easy. reflexivity. }
  cbv beta. eapply bind_ok; [reflexivity|]. eapply bind_ok; [reflexivity|].
  replace (pos + 32 + 8 + (ps - 40)) with (pos + ps) by lia.
  eapply bind_ok. { rewrite <- P6. unfold len. rewrite Nat2N.id. exact RG. }
  eapply bind_ok; [reflexivity|]. replace (pos + 32 + 8) with (pos + 40) by lia.
  eapply bind_ok.
  { rewrite (groups_same_present _ _ P7 HGS). rewrite (rows_wr b rs Q (pos + 40) buf (ph_type h) (dc_rows c) lr rows0); try easy. }
  eapply bind_ok. { unfold guard. pose proof (rows_segs_keys _ _ _ _ _ ER) as EK. apply (f_equal len) in EK. unfold keys, len in EK. rewrite !map_length in EK.
    replace (len rows0 =? c_valid (ph_counts h)) with true by (unfold len in *; lia). reflexivity. }
  eapply bind_ok; reflexivity.
Qed.

Lemma dpage_rw b rs Q db ps h c buf pos p :
  bytes_ok buf -> str_rw b rs Q buf -> 40 <= ps -> ps < 2 ^ 32 -> pos <= len buf ->
  rd_page b rs ps db buf pos = Ok (mk_page h (PData c), p) ->
  dpage_ok Q db ps h c /\ 36 * len (dc_groups c) <= pos + ps /\ p = pos + ps /\
  exists l, dpage_segs b ps pos h c = Ok (l, dc_rows c) /\ segs_in buf l.
Proof.
  intros HB HS HP HP2 HL H. unfold rd_page in H. apply bind_inv in H as (h0 & p1 & R & H).
  apply (phdr_rw db b) in R as (H3 & -> & hb & E1 & HH & L1); try easy. pose proof (has_len _ _ _ HH) as HHL.
  destruct (is_index_page (ph_flags h0)) eqn:EI; apply bind_inv in H as (c0 & p2 & R & H); apply ret_inv in H as [EP EP2]; [discriminate|].
  injection EP as -> ->. subst p2.
  unfold rd_dcontent in R. apply bind_inv in R as (vs & q & R0 & R). apply (fields_rw b no_rs no_q) in R0 as (HF & dh & E2 & HD & ->); try easy; [|lia].
  assert (len dh = 8) as L2 by (now apply (fields_enc_len b no_q dhdr_fields vs)). rewrite L2 in R.
  apply bind_inv in R as (heap & q & R0 & R). unfold lift in R0. rewrite page_heap_ok in R0 by easy. assert (heap = ps - 40 /\ q = pos + 32 + 8) as [-> ->] by (split; congruence); clear R0.
  apply bind_inv in R as (base & q & R0 & R). unfold tell in R0. assert (base = pos + 32 + 8 /\ q = pos + 32 + 8) as [-> ->] by (split; congruence); clear R0.
  apply bind_inv in R as ([] & q & R0 & R). unfold seek_to in R0. assert (q = pos + ps) as -> by (assert (q = pos + 32 + 8 + (ps - 40)) by congruence; lia); clear R0.
  apply bind_inv in R as (gs & q2 & RG & R). apply groups_rw in RG as (G1 & G2 & G3 & -> & G4); [|easy].
  apply bind_inv in R as ([] & q & R0 & R). unfold seek_to in R0. assert (q = pos + 40) as -> by (assert (q = pos + 32 + 8) by congruence; lia); clear R0.
  replace (pos + 32 + 8) with (pos + 40) in R by lia.
  apply bind_inv in R as (rows & q & R0 & R). destruct (rd_rows_at rs (ph_type h) (pos + 40) (flat_map present_offsets gs) [] buf) as [m| |] eqn:ER; [|easy|easy].
  injection R0 as -> <-. apply (rows_rw b rs Q) in ER as (S1 & S2 & S3 & l & S4 & S5); try easy.
  apply bind_inv in R as ([] & q & R0 & R). apply guard_inv in R0 as [EL <-].
  apply bind_inv in R as ([] & q & R0 & R). unfold seek_to in R0. apply ret_inv in R as [<- <-].
  cbn [dc_groups dc_rows dc_header] in *.
  assert (hdr_bytes b h (mk_dcontent vs gs rows) = Ok (hb ++ dh)) as E3. { unfold hdr_bytes. rewrite E1. cbn [res_bind dc_header]. now rewrite E2. }
  split.
  { unfold dpage_ok. cbn [dc_groups dc_rows dc_header]. repeat (split; [assumption|]). split; [unfold len; lia|]. split; [assumption|]. split; [assumption|].
    split; [lia|]. split; [|assumption]. intro o. symmetry. apply S3. }
  split; [easy|]. split; [assert (q = pos + 40 + (ps - 40)) by congruence; lia|].
  exists ((pos, hb ++ dh) :: groups_segs gs (pos + ps) ++ l). split.
  - unfold dpage_segs. rewrite E3. cbn [res_bind dc_rows dc_groups]. now rewrite S4.
  - constructor; [apply has_app; split; [exact HH|cbn [fst]; now rewrite L1]|]. apply Forall_app. now split.
Qed.
