(** * Databases whose pages were not modified *)
From Coq Require Import NArith ZArith List Bool Lia Sorted.
From Coq Require Import ZifyBool ZifyNat ZifyN.
From Verif Require Import Base BaseFacts Segs Str StrFacts Schema SchemaFacts StrGood Oa OaFacts Rows RowFacts RowSpec EnumFacts
  Page BitFacts PageFacts PageRw PageSpec IndexSpec AllocFacts Db DbFacts DbFlush.
Import ListNotations.
Ltac Zify.zify_post_hook ::= Z.div_mod_to_equations.
Open Scope N_scope.

(** ** No part of a row is in front of it *)
Lemma items_segs_ge b base : forall items os l, items_segs b base items os = Ok l -> Forall (fun s => base <= fst s) l.
Proof.
  induction items as [|d items IH]; intros [|o os] l H; cbn [items_segs] in H; try (injection H as <-; constructor).
  destruct (dstr_enc b d) as [x| |]; [|easy|easy]. cbn [res_bind] in H. destruct (items_segs b base items os) as [l'| |] eqn:E; [|easy|easy].
  injection H as <-. constructor; [cbn [fst]; lia|]. now apply (IH os).
Qed.
Lemma row_segs_ge b Q r pos l r' p : row_ok Q r -> row_segs b r pos = Ok (l, r', p) -> Forall (fun s => pos <= fst s) l.
Proof.
  intros HR H. destruct r as [k vs oc|]; [|cbn in H; injection H as <- <- <-; constructor].
  cbn [row_ok row_segs] in *. destruct HR as [HF HO].
  destruct (enc_fields b (row_fields k) vs) as [bs| |] eqn:E; [|easy|easy]. cbn [res_bind] in *.
  destruct (row_oarr k) as [[off n]|] eqn:EK, oc as [c|]; try easy.
  - destruct (row_oarr_fields _ _ _ EK) as (HNS & HSZ & _). pose proof (fields_enc_len b Q _ vs bs HNS HF E) as HLB.
    unfold oarr_segs, calculate_base in H. replace (off <=? pos + len bs) with true in H by lia. cbn [res_bind] in H.
    destruct (oa_offs c) as [o|].
    + destruct (osize_eqb (of_size o) (row_osize vs)); [|easy]. destruct (items_segs b (pos + len bs - off) (oa_items c) (of_list o)) as [l2| |] eqn:E2; [|easy|easy].
      cbn [res_bind] in H. injection H as <- <- <-. apply items_segs_ge in E2. constructor; [cbn [fst]; lia|]. constructor; [cbn [fst]; lia|].
      eapply Forall_impl; [|exact E2]. cbv beta. intros; lia.
    + destruct (oarr_enc b off (row_osize vs) (oa_items c)) as [[o x]| |]; [|easy|easy]. cbn [res_bind] in H. injection H as <- <- <-.
      repeat (apply Forall_cons; [cbn [fst]; lia|]). apply Forall_nil.
  - injection H as <- <- <-. apply Forall_cons; [cbn [fst]; lia|apply Forall_nil].
Qed.
Lemma rows_segs_ge b Q base : forall rows l rows', Forall (fun x => row_ok Q (snd x)) rows -> rows_segs b base rows = Ok (l, rows') -> Forall (fun s => base <= fst s) l.
Proof.
  induction rows as [|[o r] rows IH]; intros l rows' HT H; cbn [rows_segs] in H; [injection H as <- <-; constructor|].
  inversion HT as [|? ? HR HT2]; subst. cbn [snd] in HR. destruct (row_segs b r (base + o)) as [[[ls r'] p]| |] eqn:E; [|easy|easy]. cbn [res_bind] in H.
  destruct (rows_segs b base rows) as [[l2 rest']| |] eqn:E2; [|easy|easy]. cbn [res_bind] in H. injection H as <- <-.
  apply Forall_app. split; [|now apply (IH l2 rest')]. apply (row_segs_ge b Q) in E; [|easy]. eapply Forall_impl; [|exact E]. cbv beta. intros; lia.
Qed.

(** ** Pages that are written as they were read *)

(** The bytes at [pos] are a canonical page: the strict reader accepts it (see [c23]), its groups do not reach out of the page;
    the unused part of index pages is as it is written. *)
Definition canonical_page (b : build) (db : dbtype) (ps : N) (io : list N) (pos : N) : Prop :=
  match rd_page b (rd_dstr_strict b) ps db io pos with
  | Ok (p, q) =>
    match pg_content p with
    | PData c => 36 * len (dc_groups c) <= ps
    | PIndex c => 80 <= ps /\ ps mod 4 = 0 /\ ih_num (ic_header c) <= (ps - 80) / 4 /\ has io q (index_tail ps (ih_num (ic_header c)))
    end
  | _ => False
  end.
Lemma rd_page_pos b rs db ps io pos p q : bytes_ok io -> rd_page b rs ps db io pos = Ok (p, q) -> pos <= len io.
Proof.
  intros HB H. unfold rd_page in H. apply bind_inv in H as (h & p1 & R & _). unfold rd_phdr in R. apply bind_inv in R as (vs & p2 & R & _).
  unfold phdr_fields in R. cbn [rd_fields] in R. apply bind_inv in R as (v & p3 & R & _). cbn [rd_field] in R.
  apply bind_inv in R as (x & p4 & R & _). apply rd_le_inv in R as (_ & R & _); [|easy|easy]. apply has_len in R. lia.
Qed.
Lemma canonical_pieces b db ps io pos p q : bytes_ok io -> len io < 2 ^ 64 - 1 -> 40 <= ps -> ps < 2 ^ 32 -> canonical_page b db ps io pos ->
  rd_page b (rd_dstr b) ps db io pos = Ok (p, q) ->
  exists l, (forall buf, page_write b ps p (buf, pos) = Ok (write_segs buf l, pos + ps)) /\ segs_in io l /\ Forall (fun s => pos <= fst s) l.
Proof.
  intros HB HL H1 H2 HC HR. unfold canonical_page in HC. destruct (rd_page b (rd_dstr_strict b) ps db io pos) as [[p' q']| |] eqn:E; [|easy|easy].
  pose proof (page_strict_le _ _ _ _ _ _ E) as E'. rewrite HR in E'. injection E' as <- <-. pose proof (rd_page_pos _ _ _ _ _ _ _ _ HB HR) as HP.
  destruct p as [h [c|c]]; cbn [pg_content] in HC.
  - apply (dpage_rw b _ dstr_parsed) in E as (HO & HG & -> & l & HE & HI); try easy; [|now apply rd_dstr_strict_rw].
    pose proof HO as (P1 & P2 & P3 & P4 & P5 & P6 & P7 & P8 & P9 & P10 & P11). exists l. split; [|split; [easy|]].
    + intro buf. rewrite (dpage_write_segs db) by easy. now rewrite HE.
    + destruct (hdr_bytes_ok db b h c P3 P5) as (hb & dh & E1 & L1 & E2 & L2 & E3). unfold dpage_segs in HE. rewrite E3 in HE. cbn [res_bind] in HE.
      destruct (rows_segs b (pos + 40) (dc_rows c)) as [[lr rows0]| |] eqn:ER; [|easy|easy]. cbn [res_bind] in HE. assert (l = (pos, hb ++ dh) :: groups_segs (dc_groups c) (pos + ps) ++ lr) as -> by congruence.
      destruct (groups_within (dc_groups c) (pos + ps) P7) as [W D]; [lia|]. pose proof (footer_le (dc_groups c)).
      apply (rows_segs_ge b dstr_parsed) in ER; [|eapply Forall_impl; [|exact P11]; cbv beta; now intros x []].
      constructor; [cbn [fst]; lia|]. apply Forall_app. split; [eapply Forall_impl; [|exact W]|eapply Forall_impl; [|exact ER]]; cbv beta; intros; lia.
  - destruct HC as (C1 & C2 & C3 & C4). apply (ipage_rw b) in E as (A1 & A2 & A3 & A4 & A5 & -> & hb & ib & E1 & E2 & HH); try easy.
    exists [(pos, hb ++ ib ++ flat_map (le_enc 4) (ic_entries c) ++ index_tail ps (ih_num (ic_header c)))]. split; [|split].
    + intro buf. destruct (ipage_write_eq db b ps h c buf pos C1 A1 A3) as (hb' & ib' & E1' & L1 & E2' & L2 & EQ).
      assert (hb' = hb) by congruence. assert (ib' = ib) by congruence. subst. rewrite EQ. replace ((ps - 80) / 4 <? ih_num (ic_header c)) with false by lia.
      cbv zeta. cbn [write_segs]. do 2 f_equal. rewrite !len_app, len_flat4, len_index_tail, L1, L2. unfold len in *. lia.
    + constructor; [|constructor]. cbn [fst snd]. rewrite !app_assoc. apply has_app. rewrite <- !app_assoc. split; [easy|].
      replace (pos + len (hb ++ ib ++ flat_map (le_enc 4) (ic_entries c))) with (pos + 60 + 4 * len (ic_entries c)); [easy|].
      destruct (ipage_write_eq db b ps h c [] pos C1 A1 A3) as (hb' & ib' & E1' & L1 & E2' & L2 & EQ).
      assert (hb' = hb) by congruence. assert (ib' = ib) by congruence. subst. rewrite !len_app, len_flat4, L1, L2. unfold len. lia.
    + constructor; [cbn [fst]; lia|constructor].
Qed.

(** ** Databases in which pages were only read *)
Inductive only_read (b : build) (io : list N) (k : dbtype) : database -> Prop :=
| or_open d : db_open io k = DOk d -> only_read b io k d
| or_load d i : only_read b io k d -> i < 2 ^ 32 -> only_read b io k (fst (load_page b d i))
| or_iter d t n : only_read b io k d -> only_read b io k (fst (collect_n b n d (iter_of d t)))
| or_rows d r : only_read b io k d -> only_read b io k (fst (iter_rows b r d)).

Definition fresh (b : build) (io : list N) (k : dbtype) (d : database) : Prop :=
  db_io d = io /\ db_kind d = k /\ (exists q, rd_dbhdr k io 0 = Ok (db_header d, q)) /\ len (db_pages d) = dh_next (db_header d) - 1 /\
  forall j p, getN (db_pages d) j = Some (Some p) -> read_page b d (j + 1) = DOk p.
Lemma read_page_same b d d' i : db_io d' = db_io d -> db_kind d' = db_kind d -> db_header d' = db_header d -> read_page b d' i = read_page b d i.
Proof. intros E1 E2 E3. unfold read_page. now rewrite E1, E2, E3. Qed.
Lemma fresh_entry b io k d j d' r : fresh b io k d -> load_entry b d j (j + 1) = (d', r) -> fresh b io k d'.
Proof.
  intros HF H. unfold load_entry in H. destruct (getN (db_pages d) j) as [[q|]|] eqn:EG; try (now injection H as <- <-).
  destruct (read_page b d (j + 1)) as [p|e|] eqn:ER; try (now injection H as <- <-). injection H as <- <-.
  destruct HF as (F1 & F2 & F3 & F4 & F5). unfold fresh, with_pages. cbn [db_io db_kind db_header db_pages]. rewrite len_set_nth. repeat (split; [easy|]).
  intros i p' H. rewrite (read_page_same b d) by easy. destruct (N.eq_dec i j) as [->|NE].
  - rewrite getN_set_nth, N.eqb_refl in H by (now apply getN_Some_lt in EG). congruence.
  - rewrite getN_set_nth in H by (now apply getN_Some_lt in EG). replace (i =? j) with false in H by lia. now apply F5.
Qed.
Lemma fresh_next b io k d it d1 it1 r : fresh b io k d -> (live d it \/ it_len it = 0) -> iter_next b d it = (d1, it1, r) -> fresh b io k d1 /\ (live d1 it1 \/ it_len it1 = 0).
Proof.
  intros HF HV H. apply iter_next_cases in H as [(_ & -> & -> & ->)|[(i & E1 & E2 & -> & -> & ->)|[(i & E1 & E2 & E3 & -> & -> & ->)|(i & r1 & E1 & E2 & E3 & EL & B1 & B2 & E4 & _ & H)]]].
  - now split.
  - now split.
  - split; [easy|now right].
  - destruct HV as [HV|HV]; [|lia]. pose proof (load_entry_len _ _ _ _ _ _ EL) as HLL. replace i with (it_base it + (i - it_off it) + 1) in EL at 2 by (destruct HV; lia).
    split; [now apply (fresh_entry b io k) in EL|]. left. destruct HV. unfold live. rewrite HLL. lia.
Qed.
Lemma fresh_collect b io k : forall n d it, fresh b io k d -> (live d it \/ it_len it = 0) -> fresh b io k (fst (collect_n b n d it)).
Proof.
  induction n as [|n IH]; intros d it HF HV; [easy|]. cbn [collect_n]. destruct (iter_next b d it) as [[d1 it1] r] eqn:E.
  destruct (fresh_next b io k d it d1 it1 r HF HV E) as [HF1 HV1]. destruct r as [[x|]|e|]; try easy.
  specialize (IH d1 it1 HF1 HV1). destruct (collect_n b n d1 it1) as [d2 r2]. exact IH.
Qed.
Lemma fresh_rows_n b io k kd : forall n d it, fresh b io k d -> (live d it \/ it_len it = 0) -> fresh b io k (fst (rows_n b kd n d it)).
Proof.
  induction n as [|n IH]; intros d it HF HV; [easy|]. cbn [rows_n]. destruct (iter_next b d it) as [[d1 it1] r] eqn:E.
  destruct (fresh_next b io k d it d1 it1 r HF HV E) as [HF1 HV1]. destruct r as [[[i p]|]|e|]; try easy.
  destruct (rows_as kd (rows_of_page p)); try easy.
  specialize (IH d1 it1 HF1 HV1). destruct (rows_n b kd n d1 it1) as [d2 r2]. exact IH.
Qed.
Lemma only_read_fresh b io k d : bytes_ok io -> only_read b io k d -> fresh b io k d.
Proof.
  intros HB H. induction H as [d H|d i H IH HI|d t n H IH|d r H IH].
  - unfold db_open in H. destruct (rd_dbhdr k io 0) as [[h q]| |] eqn:E; try easy. injection H as <-. unfold fresh. cbn [db_io db_kind db_header db_pages].
    split; [easy|]. split; [easy|]. split; [now exists q|]. split; [unfold len; rewrite repeat_length; lia|]. intros j p HG. exfalso.
    assert (In (Some p) (repeat None (N.to_nat (dh_next h - 1)))) as HIN by (apply in_getN; now exists j). now apply repeat_spec in HIN.
  - pose proof IH as (_ & _ & (q & HR) & HL & _). apply dbhdr_rw in HR as ((_ & _ & HN & _) & _); [|easy]. unfold is_u32 in HN.
    destruct (N.eq_dec i 0) as [->|NZ]; [rewrite load_page_zero by lia; exact IH|].
    unfold load_page. rewrite wsub_ok by lia. destruct (i - 1 <? len (db_pages d)); [|easy].
    destruct (load_entry b d (i - 1) i) as [d' r] eqn:E. replace i with (i - 1 + 1) in E at 2 by lia. now apply (fresh_entry b io k) in E.
  - apply fresh_collect; [easy|left; apply iter_of_live].
  - unfold iter_rows, iter_pages. destruct (find_table (PT r) (db_header d)) as [[x t]|]; [|easy]. apply fresh_rows_n; [easy|left; apply iter_of_live].
Qed.

(** ** Flushing them *)
Lemma fresh_pages_write b ps buf : forall pages pos, 
  (forall k p, getN pages k = Some (Some p) -> exists l, (forall bf, page_write b ps p (bf, pos + k * ps) = Ok (write_segs bf l, pos + k * ps + ps)) /\ segs_in buf l) ->
  wr_all (map (lpage_write b ps) pages) (buf, pos) = Ok (buf, pos + len pages * ps).
Proof.
  induction pages as [|e pages IH]; intros pos HP.
  - cbn [map wr_all]. unfold wr_nil. do 2 f_equal. rewrite (@len_nil (option page)). lia.
  - cbn [map wr_all]. unfold wr_seq. assert (lpage_write b ps e (buf, pos) = Ok (buf, pos + ps)) as ->.
    { destruct e as [p|]; cbn [lpage_write].
      - destruct (HP 0 p (getN_0 _ _)) as (l & E & HI). rewrite N.mul_0_l, N.add_0_r in E. now rewrite E, write_segs_id.
      - unfold wr_seek_rel. destruct (Z.of_N pos + Z.of_N ps <? 0)%Z eqn:E; [lia|]. do 2 f_equal. lia. }
    cbn [res_bind]. rewrite len_cons. replace (pos + (1 + len pages) * ps) with (pos + ps + len pages * ps) by lia. apply IH. intros k p HK.
    destruct (HP (k + 1) p) as (l & E & HI).
    { rewrite getN_cons. replace (k + 1 =? 0) with false by lia. now rewrite N.add_sub. }
    exists l. replace (pos + ps + k * ps) with (pos + (k + 1) * ps) by lia. now split.
Qed.
Lemma fresh_flush b io k d : bytes_ok io -> len io < 2 ^ 64 - 1 -> fresh b io k d ->
  28 + 16 * len (dh_tables (db_header d)) <= dh_page_size (db_header d) -> 40 <= dh_page_size (db_header d) ->
  (forall j p, getN (db_pages d) j = Some (Some p) -> canonical_page b k (dh_page_size (db_header d)) io ((j + 1) * dh_page_size (db_header d))) ->
  flush b d = DOk (mk_db (write_at io 0 (header_page (db_header d))) k (db_header d) (db_pages d)).
Proof.
  intros HB HL (F1 & F2 & (q & F3) & F4 & F5) H1 H2 HC. apply dbhdr_rw in F3 as ((O1 & _ & O3 & _) & _); [|easy]. unfold is_u32 in *.
  unfold flush, db_write. cbv zeta. fold (header_page (db_header d)). unfold wr_seq at 1. cbn [wr_bytes res_bind].
  rewrite N.add_0_l, len_header_page by easy. set (ps := dh_page_size (db_header d)) in *. rewrite F1, F2.
  rewrite (fresh_pages_write b ps (write_at io 0 (header_page (db_header d))) (db_pages d) ps); [reflexivity|].
  intros j p HJ. specialize (HC j p HJ). specialize (F5 j p HJ). pose proof (getN_Some_lt _ _ _ HJ) as HJL.
  rewrite read_page_eq in F5 by (easy || lia). fold ps in F5. rewrite F1, F2 in F5.
  destruct (rd_page b (rd_dstr b) ps k io ((j + 1) * ps)) as [[p' q']| |] eqn:E; try easy. assert (p' = p) as -> by congruence.
  destruct (canonical_pieces b k ps io ((j + 1) * ps) p q') as (l & HW & HS & HG); try easy. replace (ps + j * ps) with ((j + 1) * ps) by lia.
  exists l. split; [easy|]. unfold segs_in in *. rewrite Forall_forall in *. intros s Hs. apply has_write_other; [now apply HS|]. right. specialize (HG s Hs).
  rewrite len_header_page by easy. fold ps. lia.
Qed.
Lemma header_page_id b io k d : bytes_ok io -> fresh b io k d -> 28 + 16 * len (dh_tables (db_header d)) <= dh_page_size (db_header d) ->
  (write_at io 0 (header_page (db_header d)) = io <->
   has io (28 + 16 * len (dh_tables (db_header d))) (zeros (dh_page_size (db_header d) - (28 + 16 * len (dh_tables (db_header d)))))).
Proof.
  intros HB (F1 & F2 & (q & F3) & F4 & F5) H1. apply dbhdr_rw in F3 as (_ & HH & _); [|easy]. split; intro H.
  - assert (has io 0 (header_page (db_header d))) as HX.
    { rewrite <- H. apply has_write_same. intro E. pose proof (len_header_page _ H1) as X. rewrite E, len_nil in X. lia. }
    unfold header_page in HX. apply has_app in HX as [_ HX]. now rewrite len_dbhdr_enc in HX.
  - apply write_at_id. unfold header_page. apply has_app. split; [easy|]. now rewrite len_dbhdr_enc.
Qed.
Lemma unmodified_flush b io k d : bytes_ok io -> len io < 2 ^ 64 - 1 -> only_read b io k d ->
  28 + 16 * len (dh_tables (db_header d)) <= dh_page_size (db_header d) -> 40 <= dh_page_size (db_header d) ->
  (forall j p, getN (db_pages d) j = Some (Some p) -> canonical_page b k (dh_page_size (db_header d)) io ((j + 1) * dh_page_size (db_header d))) ->
  exists d', flush b d = DOk d' /\ db_io d' = write_at io 0 (dbhdr_enc (db_header d) ++ zeros (dh_page_size (db_header d) - len (dbhdr_enc (db_header d)))) /\
    (db_io d' = io <->
     has io (28 + 16 * len (dh_tables (db_header d))) (zeros (dh_page_size (db_header d) - (28 + 16 * len (dh_tables (db_header d)))))).
Proof.
  intros HB HL HR H1 H2 HC. apply only_read_fresh in HR; [|easy]. eexists. split; [apply (fresh_flush b io k); assumption|]. cbn [db_io]. split; [reflexivity|].
  now apply (header_page_id b io k).
Qed.
Lemma open_pages io k d : bytes_ok io -> db_open io k = DOk d ->
  db_io d = io /\ len (db_pages d) = dh_next (db_header d) - 1 /\ forall i, i < len (db_pages d) -> getN (db_pages d) i = Some None.
Proof.
  intros HB H. assert (fresh Debug io k d) as (F1 & _ & _ & F4 & _) by (apply only_read_fresh; [easy|now apply or_open]). split; [easy|]. split; [easy|].
  unfold db_open in H. destruct (rd_dbhdr k io 0) as [[h q]| |]; try easy. injection H as <-. cbn [db_pages]. intros i Hi.
  destruct (getN_lt_Some _ _ Hi) as [x E]. rewrite E. f_equal.
  assert (In x (repeat (@None page) (N.to_nat (dh_next h - 1)))) as X by (apply in_getN; now exists i). now apply repeat_spec in X.
Qed.
