(** * Pages that were written and read again: they consist of bytes, and can be used like before *)
From Coq Require Import NArith ZArith List Bool Lia.
From Coq Require Import ZifyBool ZifyNat ZifyN.
From Verif Require Import Base BaseFacts Segs Str StrFacts StrGood Schema SchemaFacts Oa OaFacts OaSpec Rows RowFacts RowSpec Page BitFacts PageFacts PageRw PageSpec IndexSpec Alloc AllocFacts AllocSpec Db DbFacts DbFlush.
Import ListNotations.
Open Scope N_scope.

(** ** Everything that is written consists of bytes *)
Lemma offs_enc_bytes o : bytes_ok (offs_enc o).
Proof.
  unfold offs_enc. apply bytes_ok_app. split; [apply le_enc_ok|]. induction (of_list o) as [|x l IH]; [constructor|]. cbn [flat_map]. apply bytes_ok_app. split; [apply le_enc_ok|easy].
Qed.
Lemma flat_le_bytes n l : bytes_ok (flat_map (le_enc n) l).
Proof. induction l as [|x l IH]; [constructor|]. cbn [flat_map]. apply bytes_ok_app. split; [apply le_enc_ok|easy]. Qed.
Lemma items_segs_bytes b base : forall items os l, Forall dstr_inv items -> items_segs b base items os = Ok l -> Forall (fun s => bytes_ok (snd s)) l.
Proof.
  induction items as [|d items IH]; intros os l HD H; [injection H as <-; constructor|]. destruct os as [|o os]; [injection H as <-; constructor|]. cbn [items_segs] in H.
  inversion HD as [|? ? D1 D2]; subst. destruct (dstr_enc b d) as [x| |] eqn:E; [|easy|easy]. cbn [res_bind] in H.
  destruct (items_segs b base items os) as [l2| |] eqn:E2; [|easy|easy]. injection H as <-. constructor; [cbn [snd]; now apply (dstr_enc_bytes b d)|now apply (IH os)].
Qed.
Lemma calc_body_bytes b : forall items cur os body, Forall dstr_inv items -> calc_body b cur items = Ok (os, body) -> bytes_ok body.
Proof.
  induction items as [|d items IH]; intros cur os body HD H; [injection H as <- <-; constructor|]. cbn [calc_body] in H. inversion HD as [|? ? D1 D2]; subst.
  destruct (dstr_enc b d) as [x| |] eqn:E; [|easy|easy]. cbn [res_bind] in H.
  destruct (calc_body b (aligned_offset cur (dstr_align d) + len x) items) as [[os' y]| |] eqn:E2; [|easy|easy]. cbn [res_bind] in H. injection H as <- <-.
  apply bytes_ok_app. split; [apply bytes_ok_zeros|]. apply bytes_ok_app. split; [now apply (dstr_enc_bytes b d)|now apply (IH _ _ _ D2 E2)].
Qed.
Lemma row_segs_bytes b r pos l r' p : row_ok dstr_inv r -> row_segs b r pos = Ok (l, r', p) -> Forall (fun s => bytes_ok (snd s)) l.
Proof.
  destruct r as [k vs oc|]; cbn [row_segs row_ok]; [|intros _ [= <- <- <-]; constructor]. intros [HF HO].
  destruct (enc_fields b (row_fields k) vs) as [bs| |] eqn:E; [|easy|easy]. cbn [res_bind]. pose proof (fields_enc_bytes b _ _ _ HF E) as HB.
  destruct (row_oarr k) as [[off n]|], oc as [c|]; try easy; [|intros [= <- <- <-]; constructor; [easy|constructor]].
  unfold oarr_segs. destruct (calculate_base (pos + len bs) off) as [base| |]; [|easy|easy]. cbn [res_bind]. destruct HO as (_ & HD & _).
  destruct (oa_offs c) as [o|].
  - destruct (osize_eqb (of_size o) (row_osize vs)); [|easy].
    destruct (items_segs b base (oa_items c) (of_list o)) eqn:EI; [|easy|easy]. cbn [res_bind]. intros [= <- <- <-].
    constructor; [easy|]. constructor; [apply offs_enc_bytes|]. now apply items_segs_bytes in EI.
  - destruct (oarr_enc b off (row_osize vs) (oa_items c)) as [[o x]| |] eqn:EO; [|easy|easy]. cbn [res_bind]. intros [= <- <- <-].
    constructor; [easy|]. constructor; [|constructor]. cbn [snd]. unfold oarr_enc in EO.
    destruct (calc_body b _ (oa_items c)) as [[os body]| |] eqn:EC; [|easy|easy]. cbn [res_bind] in EO.
    destruct (offs_new (row_osize vs) os) as [o2| |]; [|easy|easy]. cbn [res_bind] in EO. injection EO as <- <-. apply bytes_ok_app. split; [apply offs_enc_bytes|].
    now apply (calc_body_bytes _ _ _ _ _ HD EC).
Qed.
Lemma good_inv r : row_ok dstr_good r -> row_ok dstr_inv r.
Proof. apply row_ok_impl. now intros d [H _]. Qed.
Lemma no_q_bytes b fs vs bs : fields_ok no_q fs vs -> enc_fields b fs vs = Ok bs -> bytes_ok bs.
Proof. intros HF HE. apply (fields_enc_bytes b fs vs); [|easy]. apply (fields_ok_impl no_q); [|easy]. now intros d []. Qed.
Lemma groups_segs_bytes gs : forall endp, Forall (fun s => bytes_ok (snd s)) (groups_segs gs endp).
Proof.
  induction gs as [|g gs IH]; intro endp; cbn [groups_segs]; constructor; [|easy]. unfold rg_seg. cbn [snd]. unfold rg_bytes.
  apply bytes_ok_app. split; [apply flat_le_bytes|]. apply bytes_ok_app. split; apply le_enc_ok.
Qed.
Lemma pieces_bytes b db ps pos p l : page_consistent b db ps p -> page_pieces b ps pos p l -> Forall (fun s => bytes_ok (snd s)) l.
Proof.
  intros HC HP. destruct p as [h [c|c]]; unfold page_consistent, page_pieces in *; cbn [pg_content pg_header] in *.
  - destruct HC as [(P1 & P2 & P3 & P4 & P5 & P6 & P7 & P8 & P9 & P10 & P11) _]. destruct HP as [rows' HE]. unfold dpage_segs in HE.
    destruct (hdr_bytes_ok db b h c P3 P5) as (hb & dh & E1 & L1 & E2 & L2 & E3). rewrite E3 in HE. cbn [res_bind] in HE.
    destruct (rows_segs b (pos + 40) (dc_rows c)) as [[lr rows0]| |] eqn:ER; [|easy|easy]. cbn [res_bind] in HE. injection HE as <- <-.
    constructor; [cbn [snd]; apply bytes_ok_app; split|].
    + apply (no_q_bytes b phdr_fields (phdr_vals h)); [now apply (phdr_fields_ok db)|easy].
    + now apply (no_q_bytes b dhdr_fields (dc_header c)).
    + apply Forall_app. split; [apply groups_segs_bytes|]. clear - ER P11. revert lr rows0 ER. induction (dc_rows c) as [|[o r] rows IH]; intros lr rows0 ER; cbn [rows_segs] in ER; [injection ER as <- <-; constructor|].
      inversion P11 as [|? ? [Q1 Q2] Q3]; subst. cbn [snd] in *. destruct (row_segs b r (pos + 40 + o)) as [[[ls r'] q]| |] eqn:E; [|easy|easy]. cbn [res_bind] in ER.
      destruct (rows_segs b (pos + 40) rows) as [[l2 rest']| |] eqn:E2; [|easy|easy]. cbn [res_bind] in ER. injection ER as <- <-. apply Forall_app. split; [|now apply (IH Q3 l2 rest')].
      apply row_segs_bytes in E; [easy|now apply good_inv].
  - destruct HC as (C1 & C2 & C3 & C4 & C5 & C6 & C7). destruct HP as (hb & ib & E1 & L1 & E2 & ->). constructor; [|constructor]. cbn [snd].
    apply bytes_ok_app. split; [apply (no_q_bytes b phdr_fields (phdr_vals h)); [now apply (phdr_fields_ok db)|easy]|]. apply bytes_ok_app. split.
    + apply (no_q_bytes b ihdr_fields (ihdr_vals (ic_header c))); [|easy]. now apply ihdr_fields_ok.
    + apply bytes_ok_app. split; [apply flat_le_bytes|]. unfold index_tail. apply bytes_ok_app. split; [apply flat_le_bytes|apply bytes_ok_zeros].
Qed.
(** ** Rows that were read from a page can be stored in it again *)
Lemma laid_items_segs b base : forall items lo os hi l, laid b lo items os hi -> items_segs b base items os = Ok l -> segs_within (base + lo) (base + hi) l /\ segs_disj l /\ lo <= hi.
Proof.
  intros items lo os hi l H. revert l. induction H as [lo|lo d items o os x hi HM HE HL IH]; intros l H; cbn [items_segs] in H; [injection H as <-; split; [constructor|split; [exact I|lia]]|].
  rewrite HE in H. cbn [res_bind] in H. destruct (items_segs b base items os) as [l2| |] eqn:E2; [|easy|easy]. injection H as <-.
  destruct (IH l2 eq_refl) as (W & D & LE). destruct HM as [HM _]. split; [|split; [|lia]].
  - constructor; [cbn [fst]; unfold seg_end; cbn [fst snd]; lia|]. eapply Forall_impl; [|exact W]. cbv beta. intros; lia.
  - cbn [segs_disj]. split; [|easy]. assert (segs_within (base + o) (base + o + len x) [(base + o, x)]) as W1.
    { constructor; [|constructor]. unfold seg_end. cbn [fst snd]. lia. }
    pose proof (segs_within_disj _ _ _ _ _ _ W1 W) as HX. assert (base + o + len x <= base + (o + len x)) as HY by lia. specialize (HX (or_introl HY)). now inversion HX.
Qed.
Lemma explicit_fits b r pos l r' p n : row_ok dstr_good r -> row_segs b r pos = Ok (l, r', p) -> row_fits b r n -> row_ok dstr_good r' /\ row_fits b r' n.
Proof.
  intros HR HE HF. destruct r as [k vs oc|]; [|cbn in HE; now injection HE as <- <- <-]. pose proof (HF _ _ _ _ HE) as [D1 W1]. cbn [row_segs row_ok] in HE, HR. destruct HR as [HV HO].
  destruct (enc_fields b (row_fields k) vs) as [bs| |] eqn:E; [|easy|easy]. cbn [res_bind] in HE.
  destruct (row_oarr k) as [[off m]|] eqn:EK, oc as [c|]; try easy; [|injection HE as <- <- <-; split; [cbn [row_ok]; now rewrite EK|easy]].
  destruct (oarr_segs b off (row_osize vs) c (pos + len bs)) as [[[l0 o] p0]| |] eqn:EO; [|easy|easy]. cbn [res_bind] in HE. injection HE as <- <- <-.
  destruct (row_oarr_fields k off m EK) as (F1 & F2 & F3). assert (len bs = off) as LB by (rewrite <- F2; now apply (fields_enc_len b dstr_good _ vs)).
  destruct HO as (O1 & O2 & O3). unfold oarr_segs in EO. destruct (calculate_base (pos + len bs) off) as [base| |] eqn:EB; [|easy|easy]. cbn [res_bind] in EO.
  destruct (oa_offs c) as [o0|] eqn:EOF.
  - destruct (osize_eqb (of_size o0) (row_osize vs)); [|easy]. destruct (items_segs b base (oa_items c) (of_list o0)) eqn:EI; [|easy|easy]. cbn [res_bind] in EO. injection EO as <- <- <-.
    destruct c as [o1 items]. cbn [oa_offs oa_items] in *. subst o1. split; [|easy]. cbn [row_ok]. rewrite EK. split; [easy|]. split; [easy|]. now split.
  - destruct (oarr_enc b off (row_osize vs) (oa_items c)) as [[o2 x]| |] eqn:EN; [|easy|easy]. cbn [res_bind] in EO. injection EO as <- <- <-.
    unfold oarr_enc in EN. fold (strings_from off (row_osize vs) (oa_items c)) in EN. destruct (calc_body b (strings_from off (row_osize vs) (oa_items c)) (oa_items c)) as [[os body]| |] eqn:EC; [|easy|easy]. cbn [res_bind] in EN.
    destruct (offs_new (row_osize vs) os) as [o3| |] eqn:ENW; [|easy|easy]. cbn [res_bind] in EN. injection EN as <- <-. apply offs_new_inv in ENW as [-> HB].
    pose proof (calc_body_len _ _ _ _ _ EC) as HLO. apply calc_laid in EC. split.
    + cbn [row_ok]. rewrite EK. split; [easy|]. split; [easy|]. split; [easy|]. cbn [oa_offs of_size of_list]. split; [easy|]. split; [|easy]. unfold len in HLO. cbn [oa_items]. lia.
    + intros pos2 l2 r2 p2 H. cbn [row_segs] in H. rewrite E, EK in H. cbn [res_bind] in H. unfold oarr_segs in H. cbn [oa_offs oa_items of_size of_list] in H.
      unfold calculate_base in H. replace (off <=? pos2 + len bs) with true in H by lia. cbn [res_bind] in H. rewrite osize_eqb_refl in H.
      replace (pos2 + len bs - off) with pos2 in H by lia. destruct (items_segs b pos2 (oa_items c) os) as [li| |] eqn:EI; [|easy|easy]. cbn [res_bind] in H. injection H as <- <- <-.
      destruct (laid_items_segs b pos2 _ _ _ _ _ EC EI) as (W & D & _).
      assert (len (offs_enc (mk_offs (row_osize vs) os)) = (len (oa_items c) + 1) * os_bytes (row_osize vs)) as LOE by (rewrite len_offs_enc; cbn [of_list of_size]; now rewrite HLO).
      inversion W1 as [|? ? _ W2]; subst. inversion W2 as [|? ? W3 _]; subst. unfold seg_end in W3. cbn [fst snd] in W3. rewrite len_app, LOE in W3. unfold strings_from in *.
      set (q := (len (oa_items c) + 1) * os_bytes (row_osize vs)) in *.
      assert (segs_within pos2 (pos2 + len bs) [(pos2, bs)]) as WA by (constructor; [unfold seg_end; cbn [fst snd]; lia|constructor]).
      assert (segs_within (pos2 + len bs) (pos2 + len bs + q) [(pos2 + len bs, offs_enc (mk_offs (row_osize vs) os))]) as WB by (constructor; [unfold seg_end; cbn [fst snd]; rewrite LOE; lia|constructor]).
      split.
      * change ((pos2, bs) :: (pos2 + len bs, offs_enc (mk_offs (row_osize vs) os)) :: li) with ([(pos2, bs)] ++ [(pos2 + len bs, offs_enc (mk_offs (row_osize vs) os))] ++ li).
        apply segs_disj_app. split; [cbn; easy|]. split.
        { apply segs_disj_app. split; [cbn; easy|]. split; [easy|]. eapply segs_within_disj; [exact WB|exact W|]. lia. }
        apply (segs_within_disj pos2 (pos2 + len bs) (pos2 + len bs) (pos2 + n)); [exact WA| |left; reflexivity]. apply Forall_app. split; [eapply Forall_impl; [|exact WB]|eapply Forall_impl; [|exact W]]; cbv beta; intros; lia.
      * constructor; [unfold seg_end; cbn [fst snd]; lia|]. constructor; [unfold seg_end; cbn [fst snd]; rewrite LOE; lia|]. eapply Forall_impl; [|exact W]. cbv beta. intros; lia.
Qed.

(** ** Pages that were read again *)
Lemma rd_count_forall {A} (P : A -> Prop) (p : parser A) buf : (forall pos x q, p buf pos = Ok (x, q) -> P x) -> forall n pos l q, rd_count n p buf pos = Ok (l, q) -> Forall P l.
Proof.
  intros HP n. induction n as [|n IH]; intros pos l q H; cbn [rd_count] in H; [apply ret_inv in H as [<- _]; constructor|].
  apply bind_inv in H as (x & q1 & R & H). apply bind_inv in H as (xs & q2 & R2 & H). apply ret_inv in H as [<- _]. constructor; [now apply (HP pos x q1)|now apply (IH q1 xs q2)].
Qed.
Lemma rd_page_groups b rs ps db buf pos h c q : bytes_ok buf -> rd_page b rs ps db buf pos = Ok (mk_page h (PData c), q) -> Forall rgroup_ok (dc_groups c).
Proof.
  intros HB H. unfold rd_page in H. apply bind_inv in H as (h0 & p1 & R & H). destruct (is_index_page (ph_flags h0)).
  - apply bind_inv in H as (c0 & p2 & R2 & H). apply ret_inv in H as [E _]. easy.
  - apply bind_inv in H as (c0 & p2 & R2 & H). apply ret_inv in H as [E _]. injection E as <- <-. unfold rd_dcontent in R2.
    apply bind_inv in R2 as (dh & p3 & R3 & R2). apply bind_inv in R2 as (heap & p4 & R4 & R2). apply bind_inv in R2 as (base & p5 & R5 & R2). apply bind_inv in R2 as (u & p6 & R6 & R2).
    apply bind_inv in R2 as (gs & p7 & R7 & R2). apply bind_inv in R2 as (u2 & p8 & R8 & R2). apply bind_inv in R2 as (rows & p9 & R9 & R2).
    apply bind_inv in R2 as (u3 & p10 & R10 & R2). apply bind_inv in R2 as (u4 & p11 & R11 & R2). apply ret_inv in R2 as [<- _]. cbn [dc_groups].
    apply (rd_count_forall rgroup_ok rd_rgroup buf) in R7; [easy|]. intros z x y HX. now apply rgroup_rw in HX.
Qed.
Lemma tidy_explicit b base : forall rows rows' lo hi, Forall (fun x => row_ok dstr_good (snd x)) rows ->
  Forall2 (fun x y => fst x = fst y /\ exists ls p, row_segs b (snd x) (base + fst x) = Ok (ls, snd y, p)) rows rows' -> tidy b lo rows hi -> tidy b lo rows' hi.
Proof.
  intros rows rows' lo hi HR H. revert lo. induction H as [|[o r] [o' r'] rows rows' (E1 & ls & p & E2) _ IH]; intros lo HT; [easy|]. cbn [fst snd] in *. subst o'.
  inversion HR as [|? ? R1 R2]; subst. cbn [snd tidy] in *. destruct HT as (T1 & n & T2 & T3). split; [easy|]. exists n. split; [|now apply IH]. now apply (explicit_fits b r (base + o) ls r' p).
Qed.
Lemma explicit_type b r pos l r' p pt : row_segs b r pos = Ok (l, r', p) -> row_ptype_ok pt r -> row_ptype_ok pt r'.
Proof.
  intros H HT. apply row_segs_explicit in H. destruct r as [k vs [c|]|]; cbn [made_explicit] in H; try now subst r'. destruct H as (o & -> & _). now destruct pt.
Qed.
Lemma same_flags gs gs' s : Forall2 rg_same gs gs' -> slot_flag gs' s = slot_flag gs s.
Proof.
  intro H. unfold slot_flag. generalize (s / 16) as k. induction H as [|g g' l l' H1 _ IH]; intro k; [easy|]. rewrite !getN_cons. destruct (k =? 0); [|apply IH].
  destruct H1 as (-> & _). easy.
Qed.
Lemma same_footer gs gs' : Forall2 rg_same gs gs' -> footer_size gs' = footer_size gs /\ len gs' = len gs.
Proof.
  intro H. assert (len gs' = len gs) as HL by (induction H as [|? ? ? ? _ _ IH]; [easy|rewrite !len_cons; lia]). split; [|easy].
  destruct gs as [|g0 gs0] using rev_ind; [inversion H; subst; easy|]. apply Forall2_app_inv_l in H as (l1 & l2 & H1 & H2 & ->). inversion H2 as [|? g' ? ? E1 E2]; subst. inversion E2; subst.
  rewrite !footer_last. rewrite !len_app in HL. cbn in HL. unfold rg_skip. destruct E1 as (-> & _). lia.
Qed.
(** A page that may be written, and rows may be inserted into it. *)
Definition can_grow (b : build) (db : dbtype) (ps : N) (p : page) : Prop := exists h c, p = mk_page h (PData c) /\ alloc_ok b dstr_good db ps h c.
Lemma reread_dpage b db ps pos h c l rows' io q z : dpage_ok dstr_good db ps h c -> page_tidy b ps c -> bytes_ok io -> dpage_segs b ps pos h c = Ok (l, rows') -> segs_in io l ->
  rd_page b (rd_dstr b) ps db io pos = Ok (q, z) ->
  exists c', q = mk_page h (PData c') /\ dpage_ok dstr_good db ps h c' /\ page_tidy b ps c' /\ (alloc_ok b dstr_good db ps h c -> alloc_ok b dstr_good db ps h c').
Proof.
  intros HO HT HB HE HS HR. destruct (dpage_wr b (rd_dstr b) dstr_good db ps h c io pos l rows') as (q' & R & (gs & -> & HG)); try easy.
  { apply dstr_good_wr. } { destruct HT as [HT _]. lia. }
  rewrite HR in R. injection R as -> ->. eexists. split; [reflexivity|]. apply rd_page_groups in HR; [|easy]. cbn [dc_groups] in HR.
  pose proof HO as (P1 & P2 & P3 & P4 & P5 & P6 & P7 & P8 & P9 & P10 & P11).
  unfold dpage_segs in HE. destruct (hdr_bytes b h c) as [hb| |]; [|easy|easy]. cbn [res_bind] in HE.
  destruct (rows_segs b (pos + 40) (dc_rows c)) as [[lr rows0]| |] eqn:ER; [|easy|easy]. cbn [res_bind] in HE. injection HE as <- <-.
  pose proof (rows_segs_keys _ _ _ _ _ ER) as EK. apply rows_segs_spec in ER. destruct (same_footer _ _ HG) as [HFS HGL].
  assert (Forall (fun x => row_ok dstr_good (snd x)) (dc_rows c)) as HRO by (eapply Forall_impl; [|exact P11]; now intros x []).
  assert (Forall2 (fun x y => fst x = fst y /\ exists ls p, row_segs b (snd x) (pos + 40 + fst x) = Ok (ls, snd y, p)) (dc_rows c) rows0) as HF2.
  { eapply Forall2_imp; [|exact ER]. cbv beta. intros x y (E1 & ls & p & E2 & _). split; [easy|]. now exists ls, p. }
  assert (forall lo hi, tidy b lo (dc_rows c) hi -> tidy b lo rows0 hi) as HTD by (intros lo hi; now apply (tidy_explicit b (pos + 40))).
  destruct HT as (T1 & T2 & T3). assert (dpage_ok dstr_good db ps h (mk_dcontent (dc_header c) gs rows0)) as HOK.
  { unfold dpage_ok. cbn [dc_header dc_groups dc_rows]. split; [easy|]. split; [easy|]. split; [easy|]. split; [easy|]. split; [easy|]. split; [congruence|]. split; [easy|]. split; [unfold sorted in *; now rewrite EK|].
    split. { rewrite <- P9. unfold len. rewrite <- !(map_length fst). change (length (keys rows0)) with (length (map fst rows0)) in *. unfold keys in EK. now rewrite EK. }
    split. { intro o. rewrite EK, P10. now rewrite (groups_same_present _ _ P7 HG). }
    clear - P11 T3 HF2. revert T3. generalize (ps - 40 - footer_size (dc_groups c)) as hi. generalize 0 as lo. intros lo hi. revert lo. induction HF2 as [|[o r] [o' r'] rows rows' (E1 & ls & p & E2) _ IH]; intros lo T; [constructor|].
    inversion P11 as [|? ? [Q1 Q2] Q3]; subst. cbn [fst snd tidy] in *. destruct T as (T1 & n & T2 & T3). constructor; [|now apply (IH Q3 _ T3)]. cbn [snd].
    split; [now apply (explicit_fits b r (pos + 40 + o) ls r' p n)|now apply (explicit_type b r (pos + 40 + o) ls r' p)]. }
  split; [easy|]. split.
  - unfold page_tidy. cbn [dc_groups dc_rows]. rewrite HFS, HGL. split; [easy|]. split; [easy|]. now apply HTD.
  - intros (A1 & A2 & A3 & A4 & A5 & A6). split; [easy|]. split; [easy|]. split; [easy|]. cbn [dc_groups dc_rows]. split; [intros s; rewrite (same_flags _ _ s HG); apply A4|].
    split; [now apply HTD|]. now rewrite EK.
Qed.
(** A page whose pieces are stored is read back and can be used like before. *)
Lemma reread_page b db ps pos p l io : page_consistent b db ps p -> page_pieces b ps pos p l -> bytes_ok io -> segs_in io l ->
  exists q z, rd_page b (rd_dstr b) ps db io pos = Ok (q, z) /\ page_reads_as b p q /\ page_consistent b db ps q /\ (can_grow b db ps p -> can_grow b db ps q).
Proof.
  intros HC HP HB HS. destruct (stored_reads b db ps pos p l io HC HP HS) as (q & z & R & Q). exists q, z. split; [easy|]. split; [easy|].
  destruct p as [h [c|c]]; unfold page_consistent, page_pieces, page_reads_as in *; cbn [pg_content pg_header] in *.
  - destruct HP as [rows' HE]. destruct HC as [HO HT]. destruct (reread_dpage b db ps pos h c l rows' io q z HO HT HB HE HS R) as (c' & -> & D1 & D2 & D3). cbn [pg_content pg_header]. split; [easy|].
    intros (h0 & c0 & E & HA). injection E as <- <-. exists h, c'. split; [easy|]. now apply D3.
  - subst q. cbn [pg_content pg_header]. split; [easy|easy].
Qed.
