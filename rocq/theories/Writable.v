(** * When writing succeeds

    Facts about the writers of strings, rows, pages and databases; no code of /repo is modelled here. *)
From Coq Require Import NArith ZArith List Bool Lia.
From Coq Require Import ZifyBool ZifyNat ZifyN.
From Verif Require Import Base BaseFacts Segs Utf Str StrFacts Schema SchemaFacts Oa OaFacts OaSpec Rows RowFacts Page PageFacts PageRw PageSpec AllocFacts IndexSpec Db DbFacts DbFlush.
Import ListNotations.
Open Scope N_scope.

(** The length field of a long string has 16 bits and counts 4 bytes more than the content; with overflow checks off only the content is
    limited. *)
Definition content_bytes (d : dstr) : N := match d with DSShort v | DSAscii v => len v | DSIsrc v => len v + 2 | DSUcs2 us => 2 * len us end.
Lemma content_bytes_body d : content_bytes d = len (dstr_body d).
Proof. destruct d as [v|v|v|v]; cbn [content_bytes dstr_body]; [reflexivity| |reflexivity|]; rewrite ?len_ucs2, ?len_cons, ?len_app, ?len_cons, ?len_nil; lia. Qed.
Definition str_writable (b : build) (d : dstr) : Prop :=
  match d with DSShort _ => True | _ => content_bytes d + match b with Debug => 4 | Release => 0 end < 65536 end.
Lemma long_enc d : (match d with DSShort _ => False | _ => True end) ->
  dstr_byte_count d = (if len (dstr_body d) <? 65536 then Some (len (dstr_body d)) else None).
Proof.
  intro H. unfold dstr_byte_count. destruct d as [v|v|v|v]; [easy| | |]; cbn [dstr_body].
  - replace (len (3 :: v ++ [0])) with (len v + 2) by (rewrite len_cons, len_app, len_cons, len_nil; lia). reflexivity.
  - reflexivity.
  - rewrite flat_le_len. reflexivity.
Qed.
Lemma dstr_enc_cases b d : match dstr_enc b d with Ok _ => str_writable b d | Panic => ~ str_writable b d | Err _ => False end.
Proof.
  assert (G : forall d, dstr_byte_count d = (if len (dstr_body d) <? 65536 then Some (len (dstr_body d)) else None) ->
     match (do! n <- unwrap (dstr_byte_count d); do! l <- wadd b 16 n 4; Ok (dstr_flags d :: le_enc 2 l ++ 0 :: dstr_body d)) with
     | Ok _ => len (dstr_body d) + match b with Debug => 4 | Release => 0 end < 65536
     | Panic => ~ len (dstr_body d) + match b with Debug => 4 | Release => 0 end < 65536 | Err _ => False end).
  { clear d. intros d ->. destruct (len (dstr_body d) <? 65536) eqn:E; cbn [unwrap res_bind]; [|destruct b; lia]. unfold wadd, ovf.
    change (2 ^ 16) with 65536. destruct (len (dstr_body d) + 4 <? 65536) eqn:E2; [cbn [res_bind]; destruct b; lia|]. destruct b; cbn [res_bind]; lia. }
  destruct d as [v|v|v|v]; [exact I| | |]; unfold str_writable; rewrite content_bytes_body; (apply G; apply long_enc; exact I).
Qed.

(** ** Fields and arrays *)
Definition val_strings (v : fval) : list dstr := match v with VStr d => [d] | _ => [] end.
Lemma enc_field_cases b Q f v : field_ok Q f v ->
  match enc_field b f v with Ok _ => Forall (str_writable b) (val_strings v) | Panic => ~ Forall (str_writable b) (val_strings v) | Err _ => False end.
Proof.
  intro H. destruct f, v; try easy; cbn [enc_field val_strings]; try constructor.
  pose proof (dstr_enc_cases b d) as C. destruct (dstr_enc b d); [now repeat constructor|easy|]. intro F. inversion F; subst. easy.
Qed.
Lemma enc_fields_cases b Q : forall fs vs, fields_ok Q fs vs ->
  match enc_fields b fs vs with Ok _ => Forall (str_writable b) (flat_map val_strings vs) | Panic => ~ Forall (str_writable b) (flat_map val_strings vs) | Err _ => False end.
Proof.
  induction fs as [|f fs IH]; intros vs H; inversion H as [|? v ? vs' H1 H2]; subst; [constructor|]. cbn [enc_fields flat_map].
  pose proof (enc_field_cases b Q f v H1) as C1. specialize (IH _ H2). destruct (enc_field b f v) as [x| |]; cbn [res_bind]; [|easy|rewrite Forall_app; tauto].
  destruct (enc_fields b fs vs') as [y| |]; cbn [res_bind]; rewrite ?Forall_app; tauto.
Qed.
Lemma calc_body_cases b : forall items cur,
  match calc_body b cur items with Ok _ => Forall (str_writable b) items | Panic => ~ Forall (str_writable b) items | Err _ => False end.
Proof.
  induction items as [|d items IH]; intro cur; [constructor|]. cbn [calc_body]. pose proof (dstr_enc_cases b d) as C.
  destruct (dstr_enc b d) as [x| |]; [|easy|intro F; inversion F; subst; easy]. cbn [res_bind]. set (k := aligned_offset cur (dstr_align d) + len x). specialize (IH k).
  destruct (calc_body b k items) as [[os y]| |]; cbn [res_bind]; [now constructor|easy|]. intro F. inversion F; subst. easy.
Qed.
Lemma items_segs_cases b base : forall items os, length items = length os ->
  match items_segs b base items os with Ok _ => Forall (str_writable b) items | Panic => ~ Forall (str_writable b) items | Err _ => False end.
Proof.
  induction items as [|d items IH]; intros [|o os] H; try easy; [constructor|]. cbn [items_segs]. pose proof (dstr_enc_cases b d) as C.
  destruct (dstr_enc b d) as [x| |]; [|easy|intro F; inversion F; subst; easy]. cbn [res_bind]. specialize (IH os (eq_add_S _ _ H)).
  destruct (items_segs b base items os) as [l| |]; cbn [res_bind]; [now constructor|easy|]. intro F. inversion F; subst. easy.
Qed.

(** ** Rows *)
Definition row_strings (r : row) : list dstr :=
  match r with RUnknown => [] | RRow _ vs oc => flat_map val_strings vs ++ match oc with Some c => oa_items c | None => [] end end.
(** Computed offsets fit their size. *)
Definition offsets_fit (b : build) (r : row) : Prop :=
  match r with
  | RRow k vs (Some c) =>
    match oa_offs c, row_oarr k with
    | None, Some (off, _) => exists os hi, laid b (strings_from off (row_osize vs) (oa_items c)) (oa_items c) os hi /\ Forall (fun o => o < 256 ^ os_bytes (row_osize vs)) os
    | _, _ => True
    end
  | _ => True
  end.
Lemma oarr_fields_size k off n : row_oarr k = Some (off, n) -> no_str (row_fields k) = true /\ fields_size (row_fields k) = off.
Proof. destruct k; cbn [row_oarr]; intros [= <- <-]; split; reflexivity. Qed.
Lemma row_segs_cases b Q r pos : row_ok Q r ->
  match row_segs b r pos with
  | Ok _ => Forall (str_writable b) (row_strings r) /\ offsets_fit b r
  | Panic => ~ Forall (str_writable b) (row_strings r)
  | Err e => e = EAssertFail /\ Forall (str_writable b) (row_strings r) /\ ~ offsets_fit b r
  end.
Proof.
  destruct r as [k vs oc|]; [|split; [constructor|exact I]]. intros [HF HO]. cbn [row_segs row_strings offsets_fit].
  pose proof (enc_fields_cases b Q _ _ HF) as C. destruct (enc_fields b (row_fields k) vs) as [bs| |] eqn:EF; cbn [res_bind]; [|easy|rewrite Forall_app; tauto].
  destruct (row_oarr k) as [[off n]|] eqn:EK, oc as [c|]; try easy; [|rewrite app_nil_r; auto].
  destruct (oarr_fields_size _ _ _ EK) as [NS SZ]. apply (fields_enc_len b Q) in EF; [|assumption|assumption]. rewrite SZ in EF.
  destruct HO as (HN & HQ & HP). unfold oarr_segs, calculate_base. replace (off <=? pos + len bs) with true by lia. cbn [res_bind].
  destruct (oa_offs c) as [o|].
  - destruct HP as (-> & HL & HR). rewrite osize_eqb_refl.
    pose proof (items_segs_cases b (pos + len bs - off) (oa_items c) (of_list o) ltac:(congruence)) as D.
    destruct (items_segs b (pos + len bs - off) (oa_items c) (of_list o)) as [l| |]; cbn [res_bind]; rewrite ?Forall_app; tauto.
  - unfold oarr_enc. pose proof (calc_body_cases b (oa_items c) (off + (len (oa_items c) + 1) * os_bytes (row_osize vs))) as D. unfold strings_from.
    destruct (calc_body b (off + (len (oa_items c) + 1) * os_bytes (row_osize vs)) (oa_items c)) as [[os body]| |] eqn:EC; cbn [res_bind]; rewrite ?Forall_app; [|easy|tauto].
    pose proof (calc_laid _ _ _ _ _ EC) as L. unfold offs_new. destruct (forallb _ os) eqn:EB; cbn [res_bind].
    + split; [rewrite Forall_app; tauto|]. exists os, (off + (len (oa_items c) + 1) * os_bytes (row_osize vs) + len body). split; [assumption|]. apply Forall_forall. intros x I. rewrite forallb_forall in EB. specialize (EB x I). lia.
    + split; [reflexivity|]. split; [rewrite Forall_app; tauto|]. intros (os' & hi & L' & F). apply laid_calc in L' as (body' & EC' & _). rewrite EC in EC'. injection EC' as <- <-.
      enough (forallb (fun o => o <? 256 ^ os_bytes (row_osize vs)) os = true) by congruence. apply forallb_forall. intros x I. rewrite Forall_forall in F. specialize (F x I). lia.
Qed.
Definition row_writable (b : build) (r : row) : Prop := Forall (str_writable b) (row_strings r) /\ offsets_fit b r.
Lemma row_segs_ok b Q r pos : row_ok Q r -> (exists x, row_segs b r pos = Ok x) <-> row_writable b r.
Proof.
  intro H. pose proof (row_segs_cases b Q r pos H) as C. unfold row_writable. destruct (row_segs b r pos) as [x| |].
  - split; [auto|]. intros _. now exists x.
  - split; [now intros [? ?]|]. intros [A B]. now destruct C as (_ & _ & C).
  - split; [now intros [? ?]|]. intros [A B]. now destruct C.
Qed.
Lemma row_write_cases b Q r buf pos : row_ok Q r ->
  match row_write b r (buf, pos) with
  | Ok _ => Forall (str_writable b) (row_strings r) /\ offsets_fit b r
  | Panic => ~ Forall (str_writable b) (row_strings r)
  | Err e => e = EAssertFail /\ Forall (str_writable b) (row_strings r) /\ ~ offsets_fit b r
  end.
Proof.
  intro H. rewrite row_write_segs. pose proof (row_segs_cases b Q r pos H) as C. now destruct (row_segs b r pos) as [[[l r'] p]| |].
Qed.

(** ** Pages *)
Lemma rows_segs_ok b Q base : forall rows, Forall (fun x => row_ok Q (snd x)) rows ->
  (exists x, rows_segs b base rows = Ok x) <-> Forall (fun x => row_writable b (snd x)) rows.
Proof.
  induction rows as [|[o r] rows IH]; intro H; [split; [constructor|]; intros _; now exists ([], [])|].
  inversion H as [|? ? H1 H2]; subst. cbn [rows_segs fst snd] in *. rewrite Forall_cons_iff. cbn [snd]. rewrite <- (IH H2), <- (row_segs_ok b Q r (base + o) H1).
  destruct (row_segs b r (base + o)) as [[[l r'] p]| |]; cbn [res_bind]; [|split; [now intros [? ?]|now intros [[? ?] _]]|split; [now intros [? ?]|now intros [[? ?] _]]].
  destruct (rows_segs b base rows) as [[l2 rest']| |]; cbn [res_bind]; [split; [intros _; split; eauto|eauto]|split; [now intros [? ?]|now intros [_ [? ?]]]|split; [now intros [? ?]|now intros [_ [? ?]]]].
Qed.
Definition page_writable (b : build) (ps : N) (p : page) : Prop :=
  match pg_content p with PData c => Forall (fun x => row_writable b (snd x)) (dc_rows c) | PIndex c => ih_num (ic_header c) <= (ps - 80) / 4 end.
Lemma data_page_ok db b ps h c buf pos Q :
  40 <= ps -> phdr_ok db h -> fields_ok no_q dhdr_fields (dc_header c) -> Forall rgroup_ok (dc_groups c) -> 36 * len (dc_groups c) <= pos + ps ->
  Forall (fun x => row_ok Q (snd x)) (dc_rows c) ->
  (exists s, page_write b ps (mk_page h (PData c)) (buf, pos) = Ok s) <-> Forall (fun x => row_writable b (snd x)) (dc_rows c).
Proof.
  intros H1 H2 H3 H4 H5 H6. rewrite (dpage_write_segs db) by assumption. rewrite <- (rows_segs_ok b Q (pos + 40) (dc_rows c) H6). unfold dpage_segs.
  destruct (hdr_bytes_ok db b h c H2 H3) as (hb & dh & _ & _ & _ & _ & ->). cbn [res_bind].
  destruct (rows_segs b (pos + 40) (dc_rows c)) as [[l rows']| |]; cbn [res_bind]; [split; eauto|split; now intros [? ?]|split; now intros [? ?]].
Qed.
Lemma index_page_ok db b ps h c buf pos : 80 <= ps -> phdr_ok db h -> ihdr_ok (ic_header c) ->
  (exists s, page_write b ps (mk_page h (PIndex c)) (buf, pos) = Ok s) <-> ih_num (ic_header c) <= (ps - 80) / 4.
Proof.
  intros H1 H2 H3. destruct (ipage_write_eq db b ps h c buf pos H1 H2 H3) as (hb & ib & _ & _ & _ & _ & ->).
  destruct ((ps - 80) / 4 <? ih_num (ic_header c)) eqn:E; [split; [now intros [? ?]|lia]|]. split; [lia|eauto].
Qed.

(** ** Databases *)
Definition rows_ok (p : page) : Prop := match pg_content p with PData c => Forall (fun x => row_ok dstr_inv (snd x)) (dc_rows c) | PIndex _ => True end.
Lemma page_inside_ok b db ps p buf pos : page_inside b db ps p -> rows_ok p -> (exists s, page_write b ps p (buf, pos) = Ok s) <-> page_writable b ps p.
Proof.
  destruct p as [h [c|c]]; unfold page_inside, page_writable, rows_ok; cbn [pg_header pg_content].
  - intros (HH & H1 & H2 & H3 & H4 & _) HR. apply (data_page_ok db b ps h c buf pos dstr_inv); try assumption. lia.
  - intros (HH & H1 & H2 & H3 & H4) _. now apply (index_page_ok db).
Qed.
Lemma pages_ok b db ps : forall pages buf pos,
  Forall (fun e => match e with Some p => page_inside b db ps p /\ rows_ok p | None => True end) pages ->
  (exists s, wr_all (map (lpage_write b ps) pages) (buf, pos) = Ok s) <-> Forall (fun e => match e with Some p => page_writable b ps p | None => True end) pages.
Proof.
  induction pages as [|e pages IH]; intros buf pos H; [split; [constructor|eexists; reflexivity]|]. inversion H as [|? ? H1 H2]; subst. cbn [map wr_all]. unfold wr_seq. rewrite Forall_cons_iff.
  destruct e as [p|]; cbn [lpage_write].
  - destruct H1 as [H1 HR]. rewrite <- (page_inside_ok b db ps p buf pos H1 HR). destruct (page_write b ps p (buf, pos)) as [[buf' pos']| |]; cbn [res_bind].
    + rewrite IH by assumption. split; [eauto|tauto].
    + split; [now intros [? ?]|]. now intros [[? ?] _].
    + split; [now intros [? ?]|]. now intros [[? ?] _].
  - unfold wr_seek_rel at 1. cbv beta iota zeta. destruct (Z.of_N pos + Z.of_N ps <? 0)%Z eqn:E; [lia|]. cbn [res_bind]. rewrite IH by assumption. tauto.
Qed.
Lemma flush_ok b d : all_inside b d -> (forall k p, getN (db_pages d) k = Some (Some p) -> rows_ok p) ->
  (exists d', flush b d = DOk d') <-> forall k p, getN (db_pages d) k = Some (Some p) -> page_writable b (dh_page_size (db_header d)) p.
Proof.
  intros HI HR. unfold flush, db_write. cbv zeta. unfold wr_seq at 1. cbn [wr_bytes res_bind].
  set (s := write_at (db_io d) 0 _). set (q := 0 + _). set (ps := dh_page_size (db_header d)) in *.
  transitivity (exists s', wr_all (map (lpage_write b ps) (db_pages d)) (s, q) = Ok s').
  { destruct (wr_all (map (lpage_write b ps) (db_pages d)) (s, q)) as [[io q']| |]; split; try (now intros [? ?]); eauto. }
  rewrite (pages_ok b (db_kind d)).
  - split.
    + intros F k p HK. rewrite Forall_forall in F. exact (F (Some p) (proj2 (in_getN _ _) (ex_intro _ k HK))).
    + intro F. apply Forall_forall. intros [p|] HIN; [|exact I]. apply in_getN in HIN as (k & HK). exact (F k p HK).
  - apply Forall_forall. intros [p|] HIN; [|exact I]. apply in_getN in HIN as (k & HK). split; [exact (HI k p HK)|exact (HR k p HK)].
Qed.
