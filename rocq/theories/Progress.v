(** * When writing a row, a page, a database succeeds *)
From Coq Require Import NArith ZArith List Bool Lia.
From Coq Require Import ZifyBool ZifyNat ZifyN.
From Verif Require Import Base BaseFacts Segs Str StrFacts StrGood Schema SchemaFacts Oa OaFacts OaSpec Rows RowFacts RowSpec Page BitFacts PageFacts PageRw PageSpec IndexSpec Alloc AllocFacts AllocSpec Db DbFacts DbFlush Reread.
Import ListNotations.
Open Scope N_scope.

(** ** Spec *)
(** The row can be written to an empty file. *)
Definition row_writes (b : build) (r : row) : Prop := exists s, row_write b r ([], 0) = Ok s.
(** All rows of the page can be written; the entries of an index page fit. *)
Definition page_writes (b : build) (ps : N) (p : page) : Prop :=
  match pg_content p with
  | PData c => Forall (fun x => row_writes b (snd x)) (dc_rows c)
  | PIndex c => ih_num (ic_header c) <= (ps - 80) / 4
  end.

(** ** Rows *)
Lemma writes_segs b r : row_writes b r <-> exists l r' p, row_segs b r 0 = Ok (l, r', p).
Proof.
  unfold row_writes. rewrite row_write_segs. destruct (row_segs b r 0) as [[[l r'] p]| |]; cbn [res_bind]; split.
  - intros _. now exists l, r', p.
  - intros _. now eexists.
  - now intros [s H].
  - now intros (l & r' & p & H).
  - now intros [s H].
  - now intros (l & r' & p & H).
Qed.
Lemma items_segs_move b base base' : forall items os l, items_segs b base items os = Ok l -> exists l', items_segs b base' items os = Ok l'.
Proof.
  induction items as [|d items IH]; intros os l H; [now exists []|]. destruct os as [|o os]; [now exists []|]. cbn [items_segs] in *.
  destruct (dstr_enc b d) as [x| |]; [|easy|easy]. cbn [res_bind] in *. destruct (items_segs b base items os) as [l2| |] eqn:E; [|easy|easy]. destruct (IH _ _ E) as [l' ->]. now eexists.
Qed.
Lemma calc_items_segs b base' : forall items lo os body os', calc_body b lo items = Ok (os, body) -> exists l', items_segs b base' items os' = Ok l'.
Proof.
  induction items as [|d items IH]; intros lo os body os' H; [now exists []|]. destruct os' as [|o os']; [now exists []|]. cbn [items_segs calc_body] in *.
  destruct (dstr_enc b d) as [x| |]; [|easy|easy]. cbn [res_bind] in *. destruct (calc_body b (aligned_offset lo (dstr_align d) + len x) items) as [[os2 y]| |] eqn:E; [|easy|easy].
  destruct (IH _ _ _ os' E) as [l' ->]. now eexists.
Qed.
(** Where a row is written does not matter, and a row that was written can be written again after it was read. *)
Lemma row_segs_move b Q r pos l r' p pos' : row_ok Q r -> row_segs b r pos = Ok (l, r', p) ->
  (exists l2 p2, row_segs b r pos' = Ok (l2, r', p2)) /\ (exists l2 p2, row_segs b r' pos' = Ok (l2, r', p2)).
Proof.
  intros HR HE. destruct r as [k vs oc|]; [|cbn in HE; injection HE as <- <- <-; split; cbn; now do 2 eexists]. cbn [row_segs row_ok] in HE, HR. destruct HR as [HV HO].
  destruct (enc_fields b (row_fields k) vs) as [bs| |] eqn:E; [|easy|easy]. cbn [res_bind] in HE.
  destruct (row_oarr k) as [[off m]|] eqn:EK, oc as [c|]; try easy.
  2:{ injection HE as <- <- <-. cbn [row_segs]. rewrite E, EK. cbn [res_bind]. split; now do 2 eexists. }
  destruct (oarr_segs b off (row_osize vs) c (pos + len bs)) as [[[l0 o] p0]| |] eqn:EO; [|easy|easy]. cbn [res_bind] in HE. injection HE as <- <- <-.
  destruct (row_oarr_fields k off m EK) as (F1 & F2 & F3). assert (len bs = off) as LB by (rewrite <- F2; now apply (fields_enc_len b Q _ vs)).
  cbn [row_segs]. rewrite E, EK. cbn [res_bind]. unfold oarr_segs in *. unfold calculate_base in *. replace (off <=? pos + len bs) with true in EO by lia. replace (off <=? pos' + len bs) with true by lia.
  cbn [res_bind oa_offs oa_items] in *.
  destruct (oa_offs c) as [o0|] eqn:EOF.
  - destruct (osize_eqb (of_size o0) (row_osize vs)) eqn:ES; [|easy]. destruct (items_segs b _ (oa_items c) (of_list o0)) eqn:EI; [|easy|easy]. cbn [res_bind] in EO. injection EO as <- <- <-.
    rewrite ES. destruct (items_segs_move b _ (pos' + len bs - off) _ _ _ EI) as [l' EL]. rewrite EL. cbn [res_bind]. split; now do 2 eexists.
  - destruct (oarr_enc b off (row_osize vs) (oa_items c)) as [[o2 x]| |] eqn:EN; [|easy|easy]. cbn [res_bind] in EO. injection EO as <- <- <-. cbn [res_bind]. split; [now do 2 eexists|].
    unfold oarr_enc in EN. destruct (calc_body b _ (oa_items c)) as [[os body]| |] eqn:EC; [|easy|easy]. cbn [res_bind] in EN.
    destruct (offs_new (row_osize vs) os) as [o3| |] eqn:ENW; [|easy|easy]. cbn [res_bind] in EN. injection EN as <- <-. apply offs_new_inv in ENW as [-> _]. cbn [of_size of_list]. rewrite osize_eqb_refl.
    destruct (calc_items_segs b (pos' + len bs - off) _ _ _ _ os EC) as [l' EL]. rewrite EL. cbn [res_bind]. now do 2 eexists.
Qed.
Lemma rows_segs_ok b base : forall rows, Forall (fun x => row_ok dstr_good (snd x) /\ row_writes b (snd x)) rows -> exists l rows', rows_segs b base rows = Ok (l, rows').
Proof.
  induction rows as [|[o r] rows IH]; intro H; [now exists [], []|]. inversion H as [|? ? [H1 H2] H3]; subst. cbn [snd] in *. apply writes_segs in H2 as (l & r' & p & E).
  destruct (row_segs_move b _ r 0 l r' p (base + o) H1 E) as [(l2 & p2 & E2) _]. destruct (IH H3) as (l3 & rows' & E3). cbn [rows_segs]. rewrite E2. cbn [res_bind]. rewrite E3. now do 2 eexists.
Qed.
(** ** Pages *)
Lemma page_write_ok b db ps p buf pos : page_consistent b db ps p -> page_writes b ps p -> exists s, page_write b ps p (buf, pos) = Ok s.
Proof.
  intros HC HW. apply consistent_inside in HC as HI. destruct p as [h [c|c]]; unfold page_consistent, page_writes, page_inside in *; cbn [pg_content pg_header] in *.
  - destruct HI as [HH (H1 & H2 & H3 & H4 & _)]. rewrite (dpage_write_segs db) by (easy || lia). destruct (hdr_bytes_ok db b h c HH H2) as (hb & dh & _ & _ & _ & _ & E3). unfold dpage_segs. rewrite E3. cbn [res_bind].
    destruct HC as [HC _]. destruct HC as (_ & _ & _ & _ & _ & _ & _ & _ & _ & _ & HC). destruct (rows_segs_ok b (pos + 40) (dc_rows c)) as (l & rows' & E).
    + rewrite Forall_forall in *. intros x Hx. split; [now apply HC|now apply HW].
    + rewrite E. cbn [res_bind]. now eexists.
  - destruct HI as [HH (H1 & H2 & H3 & H4)]. destruct (ipage_write_eq db b ps h c buf pos H1 HH H3) as (hb & ib & _ & _ & _ & _ & E). rewrite E.
    replace ((ps - 80) / 4 <? ih_num (ic_header c)) with false by lia. now eexists.
Qed.
(** A page that was written and is read again can be written again. *)
Lemma reread_writes b db ps pos p l io q z : page_consistent b db ps p -> page_pieces b ps pos p l -> segs_in io l -> page_writes b ps p ->
  rd_page b (rd_dstr b) ps db io pos = Ok (q, z) -> page_writes b ps q.
Proof.
  intros HC HP HS HW HR. destruct p as [h [c|c]]; unfold page_consistent, page_writes, page_pieces in *; cbn [pg_content pg_header] in *.
  - destruct HC as [HO HT]. destruct HP as [rows' HE]. destruct (dpage_wr b (rd_dstr b) dstr_good db ps h c io pos l rows') as (q' & R & (gs & -> & HG)); try easy.
    { apply dstr_good_wr. } { destruct HT as [HT _]. lia. }
    rewrite HR in R. injection R as -> ->. cbn [pg_content dc_rows]. unfold dpage_segs in HE. destruct (hdr_bytes b h c) as [hb| |]; [|easy|easy]. cbn [res_bind] in HE.
    destruct (rows_segs b (pos + 40) (dc_rows c)) as [[lr rows0]| |] eqn:ER; [|easy|easy]. cbn [res_bind] in HE. injection HE as <- <-. apply rows_segs_spec in ER.
    destruct HO as (_ & _ & _ & _ & _ & _ & _ & _ & _ & _ & HRO). clear - ER HRO. revert HRO. induction ER as [|[o r] [o' r'] rows rows' (E1 & ls & p & E2 & _) _ IH]; intro H; [constructor|].
    inversion H as [|? ? [H1 _] H2]; subst. constructor; [|now apply IH]. cbn [snd] in *. apply writes_segs. destruct (row_segs_move b _ _ _ _ _ _ 0 H1 E2) as [_ (l2 & p2 & E3)]. now exists l2, r', p2.
  - assert (q = mk_page h (PIndex c)) as ->; [|easy]. destruct (stored_reads b db ps pos (mk_page h (PIndex c)) l io) as (q' & z' & R & Q); try easy. unfold page_reads_as in Q. cbn [pg_content] in Q. congruence.
Qed.
(** ** Databases *)
Lemma pages_write_ok b db ps : forall pages buf pos,
  Forall (fun e => match e with Some p => page_consistent b db ps p /\ page_writes b ps p | None => True end) pages ->
  exists s, wr_all (map (lpage_write b ps) pages) (buf, pos) = Ok s.
Proof.
  induction pages as [|e pages IH]; intros buf pos HF; [now eexists|]. inversion HF as [|? ? HE HF']; subst. cbn [map wr_all]. unfold wr_seq.
  assert (exists s, lpage_write b ps e (buf, pos) = Ok s) as [[buf2 pos2] E].
  { destruct e as [p|]; cbn [lpage_write]; [apply (page_write_ok b db); easy|]. unfold wr_seek_rel. cbv beta iota zeta. destruct (Z.of_N pos + Z.of_N ps <? 0)%Z eqn:E; [lia|]. now eexists. }
  rewrite E. cbn [res_bind]. now apply IH.
Qed.
Lemma flush_ok b d : (forall k p, getN (db_pages d) k = Some (Some p) -> page_consistent b (db_kind d) (dh_page_size (db_header d)) p /\ page_writes b (dh_page_size (db_header d)) p) ->
  exists d', flush b d = DOk d'.
Proof.
  intro H. unfold flush, db_write, wr_seq, wr_bytes. cbn [res_bind].
  match goal with |- context [wr_all _ (?x, ?y)] => destruct (pages_write_ok b (db_kind d) (dh_page_size (db_header d)) (db_pages d) x y) as [[io z] E] end.
  - apply Forall_forall. intros [p|] HI; [|easy]. apply in_getN in HI as [k HK]. now apply (H k).
  - rewrite E. now eexists.
Qed.
