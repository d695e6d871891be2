(** * What writing and reading pages means *)
From Coq Require Import NArith ZArith List Bool Lia Sorted.
From Coq Require Import ZifyBool ZifyNat ZifyN.
From Verif Require Import Base BaseFacts Segs Str Schema SchemaFacts StrGood Oa OaFacts Rows RowFacts RowSpec EnumFacts Page BitFacts PageFacts PageRw.
Import ListNotations.
Ltac Zify.zify_post_hook ::= Z.div_mod_to_equations.
Open Scope N_scope.

(** The rows of the page that is read back: the same offsets; the rows equal, with explicit offset arrays. *)
Definition rows_explicit (b : build) (rows rows' : list (N * row)) : Prop :=
  Forall2 (fun x y => fst x = fst y /\ made_explicit b (snd x) (snd y)) rows rows'.
(** The page that is read back is the page that was written. *)
Definition reads_as (b : build) (h : phdr) (c : dcontent) (p : page) : Prop :=
  exists gs rows, p = mk_page h (PData (mk_dcontent (dc_header c) gs rows)) /\
    rows_explicit b (dc_rows c) rows /\ Forall2 rg_same (dc_groups c) gs /\
    Forall2 (fun g g' => rgroup_eqb g g' = true) (dc_groups c) gs.

Lemma page_same_reads_as b ps pos h c l rows' p :
  Forall rgroup_ok (dc_groups c) -> dpage_segs b ps pos h c = Ok (l, rows') -> page_same rows' h c p -> reads_as b h c p.
Proof.
  intros HG HE (gs & -> & HS). exists gs, rows'. split; [easy|]. split; [|split; [easy|]].
  - unfold dpage_segs in HE. destruct (hdr_bytes b h c) as [hb| |]; [|easy|easy]. cbn [res_bind] in HE.
    destruct (rows_segs b (pos + 40) (dc_rows c)) as [[lr rows0]| |] eqn:ER; [|easy|easy]. cbn [res_bind] in HE. injection HE as <- <-.
    apply rows_segs_spec in ER. eapply Forall2_imp; [|exact ER]. cbv beta. intros x y (E & ls & q & ES & _). split; [easy|].
    now apply row_segs_explicit in ES.
  - induction HS as [|g g' l1 l2 H1 H2 IH]; [constructor|]. inversion HG as [|? ? G1 G2]; subst. constructor; [|now apply IH].
    unfold rgroup_eqb. rewrite (rg_same_ok g g' G1 H1). destruct H1 as (_ & -> & _). rewrite N.eqb_refl. cbn [andb]. now apply list_eqb_eq.
Qed.

Lemma groups_segs_nonempty gs endp : Forall (fun s => snd s <> []) (groups_segs gs endp).
Proof. revert endp; induction gs as [|g gs IH]; intro endp; [constructor|]. constructor; [apply rg_bytes_nonempty|apply IH]. Qed.
Lemma rows_segs_nonempty b Q pt base rows l rows' :
  Forall (fun x => row_ok Q (snd x) /\ row_ptype_ok pt (snd x)) rows -> rows_segs b base rows = Ok (l, rows') -> Forall (fun s => snd s <> []) l.
Proof.
  revert l rows'; induction rows as [|[o r] rows IH]; intros l rows' HR H; cbn [rows_segs] in H; [injection H as <- <-; constructor|].
  inversion HR as [|? ? [R1 R2] R3]; subst.
  destruct (row_segs b r (base + o)) as [[[ls r'] p]| |] eqn:E; [|easy|easy]. cbn [res_bind] in H.
  destruct (rows_segs b base rows) as [[l2 rest']| |] eqn:E2; [|easy|easy]. cbn [res_bind] in H. injection H as <- <-.
  apply Forall_app. split; [now apply (row_segs_nonempty b Q r _ _ _ _ R1 E)|now apply (IH l2 rest')].
Qed.
Lemma dpage_segs_nonempty b Q db ps pos h c l rows' :
  dpage_ok Q db ps h c -> dpage_segs b ps pos h c = Ok (l, rows') -> Forall (fun s => snd s <> []) l.
Proof.
  intros (P1 & P2 & P3 & P4 & P5 & P6 & P7 & P8 & P9 & P10 & P11) HE.
  destruct (hdr_bytes_ok db b h c P3 P5) as (hb & dh & E1 & L1 & E2 & L2 & E3).
  unfold dpage_segs in HE. rewrite E3 in HE. cbn [res_bind] in HE.
  destruct (rows_segs b (pos + 40) (dc_rows c)) as [[lr rows0]| |] eqn:ER; [|easy|easy]. cbn [res_bind] in HE. injection HE as <- <-.
  constructor; [cbn; destruct hb; [discriminate L1|easy]|]. apply Forall_app. split; [apply groups_segs_nonempty|].
  now apply (rows_segs_nonempty b Q (ph_type h) _ _ _ _ P11 ER).
Qed.

(** C22, rows with any offsets; the pieces must not overlap. *)
Lemma dpage_write_read b db ps h c buf pos buf' p' l rows' :
  dpage_ok dstr_good db ps h c -> dpage_segs b ps pos h c = Ok (l, rows') -> segs_disj l ->
  page_write b ps (mk_page h (PData c)) (buf, pos) = Ok (buf', p') ->
  p' = pos + ps /\ exists p, rd_page b (rd_dstr b) ps db buf' pos = Ok (p, pos + ps) /\ reads_as b h c p.
Proof.
  intros HO HE HD HW. pose proof HO as (P1 & P2 & P3 & P4 & P5 & P6 & P7 & _).
  pose proof (dpage_write_inv db b ps h c buf pos _ P1 P3 P5 P7 HW) as HL. rewrite (dpage_write_segs db) in HW by easy. rewrite HE in HW. cbn [res_bind] in HW.
  injection HW as <- <-. split; [easy|].
  destruct (dpage_wr b (rd_dstr b) dstr_good db ps h c (write_segs buf l) pos l rows') as (p & R & HS); try easy.
  - apply dstr_good_wr.
  - apply write_segs_in; [easy|]. eapply Forall_impl; [|apply (dpage_segs_nonempty b dstr_good db ps pos h c l rows' HO HE)]. cbv beta. now left.
  - exists p. split; [easy|]. now apply (page_same_reads_as b ps pos h c l rows').
Qed.

(** Where the footer of a data page begins: the last group is the lowest one, its unused slots are not stored. *)
Fixpoint footer_size (gs : list rgroup) : N :=
  match gs with [] => 0 | [g] => 36 - 2 * rg_skip g | _ :: r => 36 + footer_size r end.
Lemma footer_last gs g : footer_size (gs ++ [g]) = 36 * len gs + 36 - 2 * rg_skip g.
Proof.
  induction gs as [|x gs IH]; [cbn; lia|]. pose proof (rg_skip_le g).
  rewrite len_cons, <- app_comm_cons. cbn [footer_size]. destruct (gs ++ [g]) as [|y l] eqn:E; [now destruct gs|]. rewrite IH. lia.
Qed.
Lemma rg_seg_span g endp : rgroup_ok g -> 36 <= endp ->
  fst (rg_seg g endp) = endp - (36 - 2 * rg_skip g) /\ seg_end (rg_seg g endp) = endp.
Proof.
  intros (HL & _) H. unfold seg_end, rg_seg. cbn [fst snd]. rewrite len_rg_bytes by easy. pose proof (rg_skip_le g). lia.
Qed.
Lemma footer_le gs : footer_size gs <= 36 * len gs.
Proof.
  induction gs as [|g gs IH]; [cbn; lia|]. rewrite len_cons. cbn [footer_size]. destruct gs as [|g2 gs]; lia.
Qed.
Lemma groups_within : forall gs endp, Forall rgroup_ok gs -> 36 * len gs <= endp ->
  segs_within (endp - footer_size gs) endp (groups_segs gs endp) /\ segs_disj (groups_segs gs endp).
Proof.
  induction gs as [|g gs IH]; intros endp HG HL; [split; [constructor|exact I]|].
  inversion HG as [|? ? G1 G2]; subst. rewrite len_cons in HL. destruct (rg_seg_span g endp G1) as [S1 S2]; [lia|].
  destruct (IH (endp - 36) G2) as [W D]; [lia|]. pose proof (rg_skip_le g). pose proof (footer_le gs).
  cbn [groups_segs footer_size segs_disj]. split.
  - constructor.
    + destruct gs; rewrite S1, S2; lia.
    + destruct gs as [|g2 gs]; [constructor|]. eapply Forall_impl; [|exact W]. cbv beta. intros s0. lia.
  - split; [|exact D]. eapply Forall_impl; [|exact W]. cbv beta. intros s0 Hs. unfold seg_disj. right. lia.
Qed.

(** A row that stays within [n] bytes from its offset, its pieces disjoint. *)
Definition row_fits (b : build) (r : row) (n : N) : Prop :=
  forall pos l r' p, row_segs b r pos = Ok (l, r', p) -> segs_disj l /\ segs_within pos (pos + n) l.
(** For rows with computed offsets that is the number of bytes that are written. *)
Definition row_size (b : build) (r : row) (n : N) : Prop := exists bs p, row_write b r ([], 0) = Ok (bs, p) /\ len bs = n.
Lemma write_at_nil0 bs : write_at [] 0 bs = bs.
Proof.
  destruct bs as [|x bs]; [easy|]. apply list_ext. intro i. rewrite getN_write_at by easy. replace (i <? 0) with false by lia.
  destruct (i <? 0 + len (x :: bs)) eqn:E; [f_equal; lia|].
  transitivity (@None N); [|symmetry]; apply getN_None; rewrite ?len_nil; lia.
Qed.
Lemma row_size_fits b Q r n : row_ok Q r -> row_calc r -> row_size b r n -> row_fits b r n.
Proof.
  intros HR HC (bs & p & HW & HL) pos l r' q HE. rewrite row_write_segs in HW.
  destruct (row_segs b r 0) as [[[l0 r0] p0]| |] eqn:E0; [|easy|easy]. cbn [res_bind] in HW. injection HW as HB <-.
  destruct (row_enc_segs b Q r 0 l0 r0 p0 HR HC E0) as (bs0 & EN & HX & _).
  destruct (row_enc_segs b Q r pos l r' q HR HC HE) as (bs1 & EN1 & _ & HW & HD & _).
  rewrite HX, write_at_nil0 in HB. assert (bs1 = bs) by congruence. subst. now split.
Qed.

(** Rows one after the other, possibly with gaps, within [lo, hi). *)
Fixpoint tidy (b : build) (lo : N) (rows : list (N * row)) (hi : N) : Prop :=
  match rows with
  | [] => lo <= hi
  | (o, r) :: rest => lo <= o /\ exists n, row_fits b r n /\ tidy b (o + n) rest hi
  end.
Lemma tidy_le b : forall rows lo hi, tidy b lo rows hi -> lo <= hi.
Proof.
  induction rows as [|[o r] rows IH]; intros lo hi H; [easy|]. destruct H as (H & n & _ & H2). apply IH in H2. lia.
Qed.
Lemma tidy_segs b base : forall rows lo hi l rows', tidy b lo rows hi -> rows_segs b base rows = Ok (l, rows') ->
  segs_within (base + lo) (base + hi) l /\ segs_disj l.
Proof.
  induction rows as [|[o r] rows IH]; intros lo hi l rows' HT H; cbn [rows_segs] in H; [injection H as <- <-; split; [constructor|exact I]|].
  destruct HT as (H1 & n & HF & HT). destruct (row_segs b r (base + o)) as [[[ls r'] p]| |] eqn:E; [|easy|easy]. cbn [res_bind] in H.
  destruct (rows_segs b base rows) as [[l2 rest']| |] eqn:E2; [|easy|easy]. cbn [res_bind] in H. injection H as <- <-.
  destruct (HF _ _ _ _ E) as [D1 W1]. destruct (IH _ _ _ _ HT eq_refl) as [W2 D2]. pose proof (tidy_le _ _ _ _ HT). split.
  - apply Forall_app. split; [eapply Forall_impl; [|exact W1]|eapply Forall_impl; [|exact W2]]; cbv beta; intros; lia.
  - apply segs_disj_app. split; [easy|]. split; [easy|]. eapply segs_within_disj; [exact W1|exact W2|]. lia.
Qed.

(** A tidy page: the rows are in front of the footer. *)
Definition page_tidy (b : build) (ps : N) (c : dcontent) : Prop :=
  36 * len (dc_groups c) <= ps /\ footer_size (dc_groups c) + 40 <= ps /\ tidy b 0 (dc_rows c) (ps - 40 - footer_size (dc_groups c)).
Lemma page_tidy_segs b Q db ps pos h c l rows' :
  dpage_ok Q db ps h c -> page_tidy b ps c -> dpage_segs b ps pos h c = Ok (l, rows') ->
  segs_disj l /\ segs_within pos (pos + ps) l.
Proof.
  intros (P1 & P2 & P3 & P4 & P5 & P6 & P7 & P8 & P9 & P10 & P11) (T1 & T2 & T3) HE.
  destruct (hdr_bytes_ok db b h c P3 P5) as (hb & dh & E1 & L1 & E2 & L2 & E3).
  unfold dpage_segs in HE. rewrite E3 in HE. cbn [res_bind] in HE.
  destruct (rows_segs b (pos + 40) (dc_rows c)) as [[lr rows0]| |] eqn:ER; [|easy|easy]. cbn [res_bind] in HE. injection HE as <- <-.
  destruct (groups_within (dc_groups c) (pos + ps) P7) as [W D]; [lia|]. destruct (tidy_segs _ _ _ _ _ _ _ T3 ER) as [W2 D2].
  assert (segs_within (pos + 40) (pos + ps) (groups_segs (dc_groups c) (pos + ps) ++ lr)) as WA.
  { apply Forall_app. split; [eapply Forall_impl; [|exact W]|eapply Forall_impl; [|exact W2]]; cbv beta; intros; lia. }
  split.
  - cbn [segs_disj]. split.
    + eapply Forall_impl; [|exact WA]. cbv beta. intros s Hs. unfold seg_disj, seg_end at 1. cbn [fst snd]. rewrite len_app. left. lia.
    + apply segs_disj_app. split; [easy|]. split; [easy|]. eapply segs_within_disj; [exact W|exact W2|]. lia.
  - constructor; [unfold seg_end; cbn [fst snd]; rewrite len_app; lia|]. eapply Forall_impl; [|exact WA]. cbv beta. intros; lia.
Qed.
Lemma page_write_dsegs b Q db ps h c buf pos s :
  dpage_ok Q db ps h c -> page_write b ps (mk_page h (PData c)) (buf, pos) = Ok s ->
  exists l rows', dpage_segs b ps pos h c = Ok (l, rows') /\ s = (write_segs buf l, pos + ps).
Proof.
  intros (P1 & P2 & P3 & P4 & P5 & P6 & P7 & _) HW.
  pose proof (dpage_write_inv db b ps h c buf pos _ P1 P3 P5 P7 HW) as HL. rewrite (dpage_write_segs db) in HW by easy.
  destruct (dpage_segs b ps pos h c) as [[l rows']| |]; [|easy|easy]. cbn [res_bind] in HW. exists l, rows'. split; [easy|congruence].
Qed.

(** C22 *)
Lemma tidy_page_write_read b db ps h c buf pos buf' p' :
  dpage_ok dstr_good db ps h c -> page_tidy b ps c ->
  page_write b ps (mk_page h (PData c)) (buf, pos) = Ok (buf', p') ->
  p' = pos + ps /\ exists p, rd_page b (rd_dstr b) ps db buf' pos = Ok (p, pos + ps) /\ reads_as b h c p.
Proof.
  intros HO HT HW. destruct (page_write_dsegs b _ db ps h c buf pos _ HO HW) as (l & rows' & HE & _).
  destruct (page_tidy_segs b _ db ps pos h c l rows' HO HT HE) as [HD _]. now apply (dpage_write_read b db ps h c buf pos buf' p' l rows').
Qed.

(** C24 *)
Lemma tidy_page_frame b Q db ps h c buf pos buf' p' :
  dpage_ok Q db ps h c -> page_tidy b ps c -> page_write b ps (mk_page h (PData c)) (buf, pos) = Ok (buf', p') ->
  (forall i, i < len buf -> i < pos \/ pos + ps <= i -> getN buf' i = getN buf i) /\
  (pos + ps <= len buf -> len buf' = len buf).
Proof.
  intros HO HT HW. destruct (page_write_dsegs b _ db ps h c buf pos _ HO HW) as (l & rows' & HE & [= -> ->]).
  destruct (page_tidy_segs b _ db ps pos h c l rows' HO HT HE) as [_ HW2]. split.
  - intros i Hi HR. apply write_segs_frame; [easy|]. intro HC. apply Exists_exists in HC as (s & Hs & HC).
    unfold segs_within in HW2. rewrite Forall_forall in HW2. specialize (HW2 s Hs). lia.
  - intro HL. apply write_segs_len_eq; [easy|]. eapply Forall_impl; [|exact HW2]. cbv beta. intros; lia.
Qed.
(** Inside the heap: a byte that belongs to no present row and not to the footer keeps its value. *)
Lemma heap_frame b Q db ps h c buf pos buf' p' i :
  dpage_ok Q db ps h c -> 36 * len (dc_groups c) <= ps -> page_write b ps (mk_page h (PData c)) (buf, pos) = Ok (buf', p') ->
  i < len buf -> pos + 40 <= i -> i < pos + ps - footer_size (dc_groups c) ->
  (forall o r, In (o, r) (dc_rows c) -> exists n, row_fits b r n /\ (i < pos + 40 + o \/ pos + 40 + o + n <= i)) ->
  getN buf' i = getN buf i.
Proof.
  intros HO HG HW Hi H1 H2 HR. destruct (page_write_dsegs b _ db ps h c buf pos _ HO HW) as (l & rows' & HE & [= -> ->]).
  apply write_segs_frame; [easy|]. intro HC.
  destruct HO as (P1 & P2 & P3 & P4 & P5 & P6 & P7 & P8 & P9 & P10 & P11).
  destruct (hdr_bytes_ok db b h c P3 P5) as (hb & dh & E1 & L1 & E2 & L2 & E3).
  unfold dpage_segs in HE. rewrite E3 in HE. cbn [res_bind] in HE.
  destruct (rows_segs b (pos + 40) (dc_rows c)) as [[lr rows0]| |] eqn:ER; [|easy|easy]. cbn [res_bind] in HE. injection HE as <- <-.
  apply Exists_cons in HC as [HC|HC]; [unfold seg_end in HC; cbn [fst snd] in HC; rewrite len_app in HC; lia|].
  apply Exists_app in HC as [HC|HC]; apply Exists_exists in HC as (s & Hs & HC).
  - destruct (groups_within (dc_groups c) (pos + ps) P7) as [W _]; [lia|]. unfold segs_within in W. rewrite Forall_forall in W. specialize (W s Hs). lia.
  - clear -HR ER Hs HC. revert lr rows0 ER Hs. generalize dependent (dc_rows c). intro rows.
    induction rows as [|[o r] rows IH]; intros HR lr rows0 ER Hs; cbn [rows_segs] in ER; [injection ER as <- <-; easy|].
    destruct (row_segs b r (pos + 40 + o)) as [[[ls r'] p]| |] eqn:E; [|easy|easy]. cbn [res_bind] in ER.
    destruct (rows_segs b (pos + 40) rows) as [[l2 rest']| |] eqn:E2; [|easy|easy]. cbn [res_bind] in ER. injection ER as <- <-.
    apply in_app_or in Hs as [Hs|Hs].
    + destruct (HR o r) as (n & HF & HO); [now left|]. destruct (HF _ _ _ _ E) as [_ W]. unfold segs_within in W. rewrite Forall_forall in W. specialize (W s Hs). lia.
    + apply (IH) with (lr := l2) (rows0 := rest'); try easy. intros; apply HR; now right.
Qed.

(** C23 *)
Lemma dpage_read_write_back b db ps buf pos h c p :
  bytes_ok buf -> len buf < 2 ^ 64 - 1 -> 40 <= ps -> ps < 2 ^ 32 -> pos <= len buf ->
  rd_page b (rd_dstr_strict b) ps db buf pos = Ok (mk_page h (PData c), p) ->
  page_write b ps (mk_page h (PData c)) (buf, pos) = Ok (buf, p).
Proof.
  intros HB HL H1 H2 HP H. apply (dpage_rw b _ dstr_parsed) in H as (HO & HG & -> & l & HE & HI); try easy; [|now apply rd_dstr_strict_rw].
  destruct HO as (P1 & P2 & P3 & P4 & P5 & P6 & P7 & _). rewrite (dpage_write_segs db) by easy. rewrite HE. cbn [res_bind]. now rewrite write_segs_id.
Qed.
Lemma rd_rows_at_mono rs1 rs2 pt base buf : rs_le rs1 rs2 buf -> forall os acc m,
  rd_rows_at rs1 pt base os acc buf = Ok m -> rd_rows_at rs2 pt base os acc buf = Ok m.
Proof.
  intro HS. induction os as [|o os IH]; intros acc m H; [easy|]. cbn [rd_rows_at] in *.
  destruct (rd_row rs1 pt buf (base + o)) as [[r p]| |] eqn:E; [|easy|easy]. rewrite (row_mono _ _ _ _ _ _ HS E). now apply IH.
Qed.
Lemma page_mono b rs1 rs2 ps db buf pos r : rs_le rs1 rs2 buf -> rd_page b rs1 ps db buf pos = Ok r -> rd_page b rs2 ps db buf pos = Ok r.
Proof.
  intros HS H. destruct r as [pg pe]. unfold rd_page in *. apply bind_inv in H as (h & p1 & R & H). eapply bind_ok; [exact R|].
  destruct (is_index_page (ph_flags h)); [easy|]. apply bind_inv in H as (c & p2 & R2 & H). eapply bind_ok; [|exact H]. clear H.
  unfold rd_dcontent in *. apply bind_inv in R2 as (dh & p3 & R3 & H). eapply bind_ok; [exact R3|]. clear R3.
  apply bind_inv in H as (hp & p4 & R3 & H). eapply bind_ok; [exact R3|]. clear R3.
  apply bind_inv in H as (bs & p5 & R3 & H). eapply bind_ok; [exact R3|]. clear R3.
  apply bind_inv in H as (u1 & p6 & R3 & H). eapply bind_ok; [exact R3|]. clear R3.
  apply bind_inv in H as (gs & p7 & R3 & H). eapply bind_ok; [exact R3|]. clear R3.
  apply bind_inv in H as (u2 & p8 & R3 & H). eapply bind_ok; [exact R3|]. clear R3.
  apply bind_inv in H as (rows & p9 & R3 & H). eapply bind_ok; [|exact H].
  destruct (rd_rows_at rs1 (ph_type h) bs (flat_map present_offsets gs) [] buf) as [m| |] eqn:E; [|easy|easy].
  now rewrite (rd_rows_at_mono _ _ _ _ _ HS _ _ _ E).
Qed.
Lemma page_strict_le b ps db buf pos r :
  rd_page b (rd_dstr_strict b) ps db buf pos = Ok r -> rd_page b (rd_dstr b) ps db buf pos = Ok r.
Proof. apply page_mono, rd_dstr_strict_le. Qed.
