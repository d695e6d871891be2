(** * Property C105: rows that are in a file stay where they are when rows are inserted and deleted *)
From Coq Require Import NArith ZArith List Bool Lia.
From Coq Require Import ZifyBool ZifyNat ZifyN.
From Verif Require Import Base BaseFacts Segs Str StrFacts StrGood Schema SchemaFacts Oa OaFacts OaSpec Rows RowFacts RowSpec Page BitFacts PageFacts PageRw PageSpec IndexSpec Alloc AllocFacts AllocSpec
  Db DbFacts DbFlush DbFresh Reread Progress Insert Session Delete Revise Relink Untouched Remains PropAlloc PropSession PropRevise Cut PropCut PropRelink.
Import ListNotations.
Open Scope N_scope.

Lemma good_filed b d i h c : bytes_ok (db_io d) -> len (db_io d) < 2 ^ 64 - 1 -> good_page b d GGrow i (mk_page h (PData c)) -> let ps := dh_page_size (db_header d) in
  filed b (db_kind d) ps i (ph_used h) (dc_rows c) (db_io d) /\ rooted b (i * ps + 40) (db_io d) (dc_rows c) /\ 40 + ph_used h <= ps /\
  exists l, rows_segs b (i * ps + 40) (dc_rows c) = Ok (l, dc_rows c) /\ segs_in (db_io d) l /\ segs_within (i * ps + 40) (i * ps + 40 + ph_used h) l.
Proof.
  intros HB HL HG ps. destruct (good_steady b d GGrow i _ HB HL HG I) as (l & [HP HE] & HSI). destruct HG as (H1 & _ & HC & HW & HG & _). fold ps in HC, HW, HG, HP, HE. cbn [pg_content pg_header] in HE. destruct (HG eq_refl) as (h0 & c0 & E0 & HOK). injection E0 as <- <-.
  pose proof HOK as ((P1 & _) & A1 & A2 & _ & A4 & _). pose proof HE as HE'. unfold dpage_segs in HE'. destruct (hdr_bytes b h c) as [hb| |]; try easy. cbn [res_bind] in HE'.
  destruct (rows_segs b (i * ps + 40) (dc_rows c)) as [[lr rows2]| |] eqn:ER; try easy. cbn [res_bind] in HE'. injection HE' as EL ->.
  assert (segs_in (db_io d) lr) as HSR. { unfold segs_in in *. rewrite Forall_forall in *. intros s Hs. apply HSI. rewrite <- EL. right. apply in_app_iff. now right. }
  split; [|split; [now apply (rows_rooted b _ _ _ lr)|split; [lia|]]].
  - exists (mk_page h (PData c)), l. split; [exists h, c; split; [reflexivity|]; split; [exact HOK|]; split; [lia|]; apply Forall_forall; intros x Hx; now left|]. split; [exact HC|]. split; [exact HP|]. split; [exact HSI|].
    destruct (page_write_ok b (db_kind d) ps _ [] (i * ps) HC HW) as [s HS2]. destruct (page_write_pieces b _ ps _ _ _ _ (consistent_inside _ _ _ _ HC) HS2) as (l' & HP' & _ & HWI). pose proof (pieces_fun _ _ _ _ _ _ HP HP') as ->. now replace ((i + 1) * ps) with (i * ps + ps) by lia.
  - exists lr. split; [reflexivity|]. split; [exact HSR|]. destruct (tidy_segs b (i * ps + 40) _ _ _ _ _ A4 ER) as [HW2 _]. now rewrite N.add_0_r in HW2.
Qed.

(** Programs as in C80, which may load and save a page, insert rows into it, delete rows from it, and change its type and link, but assign nothing to its rows.
    Every byte of the part of the page that had been given to rows before is the same afterwards. *)
Theorem c105_bytes : forall b k io d G A ls io' i p x,
  bytes_ok io -> len io < 2 ^ 64 - 1 -> db_open io k = DOk d -> 28 + 16 * len (dh_tables (db_header d)) <= dh_page_size (db_header d) ->
  (forall i s, A i = Some s -> exists p, good_page b d (G i) i p /\ like s p) -> tasks_ok b k G (db_header d, A) (concat ls) -> jobs b k io ls io' ->
  good_page b d GGrow i p -> ~ In i (assigned (concat ls)) ->
  i * dh_page_size (db_header d) + 40 <= x -> x < i * dh_page_size (db_header d) + 40 + ph_used (pg_header p) -> x < len io -> getN io' x = getN io x.
Proof.
  intros b k io d G A ls io' i p x HB HL HO HP HA HT HJ HG HN X1 X2 X3. pose proof (open_none io k d HO) as [EIO _]. pose proof (open_kind io k d HO) as HK. pose proof HG as (H1 & H2 & _ & _ & HGR & _). destruct (HGR eq_refl) as (h & c & -> & _). cbn [pg_header] in X2.
  assert (stores b d G A) as HS by (now apply (open_stores b io k)). rewrite <- EIO in HB, HL. destruct (good_filed b d i h c HB HL HG) as (F1 & F2 & F3 & _). rewrite HK, EIO in F1. rewrite EIO in F2.
  now apply (jobs_firm b io _ i (ph_used h) (dc_rows c) H1 F2 F3 k io ls io' HJ d G (db_header d, A) HO eq_refl H2 HS eq_refl HT HN F1).
Qed.
Print Assumptions c105_bytes.
(** So every row that was in the page is read at the same place, with the same value, whether it was deleted or not. *)
Theorem c105_rows : forall b k io d G A ls io' i h c o r,
  bytes_ok io -> len io < 2 ^ 64 - 1 -> db_open io k = DOk d -> 28 + 16 * len (dh_tables (db_header d)) <= dh_page_size (db_header d) ->
  (forall i s, A i = Some s -> exists p, good_page b d (G i) i p /\ like s p) -> tasks_ok b k G (db_header d, A) (concat ls) -> jobs b k io ls io' ->
  good_page b d GGrow i (mk_page h (PData c)) -> ~ In i (assigned (concat ls)) -> In (o, r) (dc_rows c) ->
  exists z, rd_row (rd_dstr b) (ph_type h) io' (i * dh_page_size (db_header d) + 40 + o) = Ok (r, z).
Proof.
  intros b k io d G A ls io' i h c o r HB HL HO HP HA HT HJ HG HN HI. pose proof (open_none io k d HO) as [EIO _]. set (ps := dh_page_size (db_header d)) in *.
  assert (forall x, i * ps + 40 <= x -> x < i * ps + 40 + ph_used h -> x < len io -> getN io' x = getN io x) as HX by (intros; now apply (c105_bytes b k io d G A ls io' i (mk_page h (PData c)))).
  rewrite <- EIO in HB, HL, HX. destruct (good_filed b d i h c HB HL HG) as (_ & F2 & _ & l & F4 & F5 & F6). fold ps in F2, F4, F6. destruct HG as (_ & _ & _ & _ & HGR & _). destruct (HGR eq_refl) as (h0 & c0 & E0 & HOK). injection E0 as <- <-.
  destruct HOK as ((_ & _ & _ & _ & _ & _ & _ & _ & _ & _ & P11) & _). pose proof (rows_segs_nonempty b _ _ _ _ _ _ P11 F4) as HNE. rewrite Forall_forall in P11. destruct (P11 _ HI) as [R1 R2]. cbn [snd] in R1, R2.
  pose proof (segs_in_frame (db_io d) io' _ _ l F5 F6 HNE HX) as HS. pose proof (rows_rooted b _ io' _ l F4 HS (o, r) HI) as (lr & z & E & HSR). cbn [fst snd] in E.
  now apply (row_wr b (rd_dstr b) dstr_good r io' _ lr r z (ph_type h) (dstr_good_wr b io') R1 R2 E).
Qed.
Print Assumptions c105_rows.

(** ** Example: page 1 has the keys 1 and 2.  The first program deletes key 1, inserts key 9, and saves twice; the second one deletes what is left. *)
Definition c105_jobs : list (list task) := [[TActs c78_tables [ADelete 1 0; ASave; AInsert 1 [(11, Some c18_new)]]]; [TActs c78_tables [ADelete 1 0; ADelete 1 0]]].
Example c105_example : exists io' d', jobs Debug DbPlain (c80_io 1) c105_jobs io' /\ ~ In 1 (assigned (concat c105_jobs)) /\ snd (iter_rows Debug KKey (c80_open 1)) = Some (DOk (map snd c18_rows)) /\
  db_open io' DbPlain = DOk d' /\ snd (iter_rows Debug KKey d') = Some (DOk []) /\
  exists z, rd_row (rd_dstr Debug) (PT KKey) io' (1 * 198 + 40 + 0) = Ok (RRow KKey [VInt 1; VInt 1; VStr (DSShort [65; 109])] None, z).
Proof.
  destruct (c80_example_hyp 1 (or_introl eq_refl)) as (H1 & H2 & H3 & H4 & H5). assert (len (c80_io 1) = 594) as HLN by (vm_compute; reflexivity).
  assert (tasks_ok Debug DbPlain (fun _ => GGrow) (db_header (c80_open 1), c80_shelves 1) (concat c105_jobs)) as HT.
  { cbn [concat c105_jobs app tasks_ok]. split; [|split; [|exact I]].
    - cbn [task_ok acts_ok fst snd]. split; [|split; [exact I|split; [|exact I]]].
      + split; [eexists; reflexivity|discriminate].
      + eexists. split; [reflexivity|]. right. split; [reflexivity|exact H5].
    - cbn [task_ok acts_ok fst snd]. split; [|split; [|exact I]]; (split; [eexists; reflexivity|discriminate]). }
  destruct (c80_run Debug DbPlain (c80_io 1) (c80_open 1) (fun _ => GGrow) (c80_shelves 1) c105_jobs) as [io' HJ]; [exact H1|rewrite HLN; reflexivity|exact H2|vm_compute; discriminate|vm_compute; discriminate|exact H3|exact HT|].
  assert (~ In 1 (assigned (concat c105_jobs))) as HN by (intros []).
  destruct (c80_jobs Debug DbPlain (c80_io 1) (c80_open 1) (fun _ => GGrow) (c80_shelves 1) c105_jobs io') as (d' & D1 & D2 & D3 & D4); [exact H1|rewrite HLN; reflexivity|exact H2|vm_compute; discriminate|exact H3|exact HT|exact HJ|].
  exists io', d'. split; [exact HJ|]. split; [exact HN|]. split; [vm_compute; reflexivity|]. split; [exact D1|]. split.
  - destruct (D4 KKey 1 (mk_table (PT KKey) 9 1 1) [1]) as (rows & R1 & R2); [reflexivity|cbn [tb_last tb_first]; eapply path_last; reflexivity|reflexivity|]. rewrite R1. change (flat_map _ [1]) with (@nil row) in R2. now inversion R2.
  - destruct (H3 1 _ eq_refl) as (p & HG & _). pose proof HG as (_ & _ & _ & _ & _ & z & HR).
    assert (rd_page Debug (rd_dstr_strict Debug) (dh_page_size (db_header (c80_open 1))) (db_kind (c80_open 1)) (db_io (c80_open 1)) (1 * dh_page_size (db_header (c80_open 1))) = Ok (c75_page, 396)) as HR' by (vm_compute; reflexivity).
    rewrite HR' in HR. injection HR as <- _. apply (c105_rows Debug DbPlain (c80_io 1) (c80_open 1) (fun _ => GGrow) (c80_shelves 1) c105_jobs io' 1 c18_header c18_content 0);
    [exact H1|rewrite HLN; reflexivity|exact H2|vm_compute; discriminate|exact H3|exact HT|exact HJ|exact HG|exact HN|now left].
Qed.
