(** * Flushing databases *)
From Coq Require Import NArith ZArith List Bool Lia Sorted.
From Coq Require Import ZifyBool ZifyNat ZifyN.
From Verif Require Import Base BaseFacts Segs Str StrFacts Schema SchemaFacts StrGood Oa OaFacts Rows RowFacts RowSpec EnumFacts
  Page BitFacts PageFacts PageRw PageSpec IndexSpec AllocFacts Db DbFacts.
Import ListNotations.
Ltac Zify.zify_post_hook ::= Z.div_mod_to_equations.
Open Scope N_scope.

(** ** The header *)
Definition table_ok (k : dbtype) (t : table) : Prop :=
  ptype_ok k (tb_type t) /\ is_u32 (tb_empty t) /\ is_u32 (tb_first t) /\ is_u32 (tb_last t).
Definition dbhdr_ok (k : dbtype) (h : dbhdr) : Prop :=
  is_u32 (dh_page_size h) /\ is_u32 (dh_num h) /\ is_u32 (dh_next h) /\ is_u32 (dh_unknown h) /\ is_u32 (dh_seq h) /\
  dh_num h = len (dh_tables h) /\ Forall (table_ok k) (dh_tables h).

Lemma len_table_enc t : len (table_enc t) = 16.
Proof. unfold table_enc. rewrite !len_app, !len_le_enc. reflexivity. Qed.
Lemma len_tables_enc l : len (flat_map table_enc l) = 16 * len l.
Proof. induction l as [|t l IH]; [reflexivity|]. cbn [flat_map]. rewrite len_app, len_table_enc, IH, len_cons. lia. Qed.
Lemma len_dbhdr_enc h : len (dbhdr_enc h) = 28 + 16 * len (dh_tables h).
Proof. unfold dbhdr_enc. rewrite !len_app, !len_le_enc, len_tables_enc. lia. Qed.

Lemma table_wr k buf t pos : table_ok k t -> has buf pos (table_enc t) -> rd_table k buf pos = Ok (t, pos + len (table_enc t)).
Proof.
  intros (H1 & H2 & H3 & H4) H. apply ptype_code_ok in H1 as [C1 C2]. unfold is_u32 in *. rewrite len_table_enc. unfold table_enc in H.
  repeat (apply has_app in H as [?G H]). rewrite !len_le_enc in *. unfold rd_table, rd_ptype.
  eapply bind_ok. { eapply bind_ok; [apply rd_le_has; [|eassumption]; exact C1|reflexivity]. }
  eapply bind_ok; [apply rd_le_has; [|eassumption]; assumption|]. eapply bind_ok; [apply rd_le_has; [|eassumption]; assumption|].
  eapply bind_ok; [apply rd_le_has; [|eassumption]; assumption|]. unfold ret. rewrite C2. destruct t as [ta te tf tl]. cbn [tb_type tb_empty tb_first tb_last]. do 2 f_equal. lia.
Qed.
Lemma table_rw k buf t pos p : bytes_ok buf -> rd_table k buf pos = Ok (t, p) -> table_ok k t /\ has buf pos (table_enc t) /\ p = pos + len (table_enc t).
Proof.
  intros HB H. unfold rd_table, rd_ptype in H. apply bind_inv in H as (ty & q & R & H). apply bind_inv in R as (c & q0 & R & R').
  apply ret_inv in R' as [<- <-]. apply rd_le_inv in R as (C1 & C2 & ->); try easy.
  apply bind_inv in H as (e & q & R & H). apply rd_le_inv in R as (E1 & E2 & ->); try easy.
  apply bind_inv in H as (f & q & R & H). apply rd_le_inv in R as (F1 & F2 & ->); try easy.
  apply bind_inv in H as (l & q & R & H). apply rd_le_inv in R as (L1 & L2 & ->); try easy. apply ret_inv in H as [<- <-].
  change (256 ^ N.of_nat 4) with (2 ^ 32) in *. destruct (ptype_of_ok k c C1) as [T1 T2]. rewrite len_table_enc. split; [repeat split; assumption|].
  unfold table_enc. cbn [tb_type tb_empty tb_first tb_last]. rewrite T2. split; [|lia].
  repeat (apply has_app; split; [rewrite ?len_le_enc; assumption|]). rewrite ?len_le_enc. assumption.
Qed.
Lemma dbhdr_wr k h buf pos : dbhdr_ok k h -> has buf pos (dbhdr_enc h) -> rd_dbhdr k buf pos = Ok (h, pos + len (dbhdr_enc h)).
Proof.
  intros (H1 & H2 & H3 & H4 & H5 & H6 & H7) H. unfold is_u32 in *. rewrite len_dbhdr_enc. unfold dbhdr_enc in H.
  repeat (apply has_app in H as [?G H]). rewrite !len_le_enc in *. unfold rd_dbhdr.
  eapply bind_ok; [apply magic_le_has; [reflexivity|eassumption]|].
  do 5 (eapply bind_ok; [apply rd_le_has; [|eassumption]; assumption|]). eapply bind_ok; [apply magic_le_has; [reflexivity|eassumption]|].
  cbv beta. eapply bind_ok. { rewrite H6. unfold len. rewrite Nat2N.id. apply (rd_count_has table_enc (rd_table k) (table_ok k)); [|exact H7|eassumption]. intros v q HV HH. now apply table_wr. }
  unfold ret. rewrite len_tables_enc. rewrite H6. destruct h as [hp hn hx hu hs ht]. cbn [dh_page_size dh_num dh_next dh_unknown dh_seq dh_tables] in *. subst. do 2 f_equal. unfold len. lia.
Qed.
Lemma dbhdr_rw k h buf pos p : bytes_ok buf -> rd_dbhdr k buf pos = Ok (h, p) -> dbhdr_ok k h /\ has buf pos (dbhdr_enc h) /\ p = pos + len (dbhdr_enc h).
Proof.
  intros HB H. unfold rd_dbhdr in H. apply bind_inv in H as (u0 & q & R & H). apply magic_le_inv in R as (M1 & ->); try easy.
  apply bind_inv in H as (ps & q & R & H). apply rd_le_inv in R as (A1 & A2 & ->); try easy.
  apply bind_inv in H as (n & q & R & H). apply rd_le_inv in R as (B1 & B2 & ->); try easy.
  apply bind_inv in H as (nx & q & R & H). apply rd_le_inv in R as (C1 & C2 & ->); try easy.
  apply bind_inv in H as (u & q & R & H). apply rd_le_inv in R as (D1 & D2 & ->); try easy.
  apply bind_inv in H as (sq & q & R & H). apply rd_le_inv in R as (E1 & E2 & ->); try easy.
  apply bind_inv in H as (u1 & q & R & H). apply magic_le_inv in R as (F1 & ->); try easy.
  apply bind_inv in H as (ts & q & R & H). apply ret_inv in H as [<- <-].
  apply (rd_count_inv table_enc (rd_table k) (table_ok k)) in R as (HL & HF & HE & ->); [|intros v p1 p2 HR; now apply table_rw].
  change (256 ^ N.of_nat 4) with (2 ^ 32) in *. assert (n = len ts) as -> by (unfold len; lia). split; [repeat split; assumption|].
  unfold dbhdr_enc. cbn [dh_page_size dh_num dh_next dh_unknown dh_seq dh_tables]. split; [|rewrite !len_app, !len_le_enc; lia].
  repeat (apply has_app; split; [rewrite ?len_le_enc; assumption|]). rewrite ?len_le_enc. destruct HE as [HE|HE]; [|assumption].
  destruct ts as [|t0 ts]; [|exfalso; rewrite len_cons in HE; lia]. cbn [flat_map]. apply has_nil. apply has_len in F1. rewrite len_le_enc in F1. lia.
Qed.

(** ** Pages as pieces *)

(** A row that stays within [n] bytes from its offset. *)
Definition row_inside (b : build) (r : row) (n : N) : Prop :=
  forall pos l r' p, row_segs b r pos = Ok (l, r', p) -> segs_within pos (pos + n) l.
Lemma row_fits_inside b r n : row_fits b r n -> row_inside b r n.
Proof. intros H pos l r' p E. now apply H in E. Qed.
(** A page all parts of which lie inside the page: nothing is written outside. *)
Definition page_inside (b : build) (db : dbtype) (ps : N) (p : page) : Prop :=
  phdr_ok db (pg_header p) /\
  match pg_content p with
  | PData c => 40 <= ps /\ fields_ok no_q dhdr_fields (dc_header c) /\ Forall rgroup_ok (dc_groups c) /\ 36 * len (dc_groups c) <= ps /\
               Forall (fun x => exists n, row_inside b (snd x) n /\ fst x + n <= ps - 40) (dc_rows c)
  | PIndex c => 80 <= ps /\ ps mod 4 = 0 /\ ihdr_ok (ic_header c) /\ len (ic_entries c) = ih_num (ic_header c)
  end.
(** The pieces a page at [pos] consists of. *)
Definition page_pieces (b : build) (ps pos : N) (p : page) (l : list seg) : Prop :=
  match pg_content p with
  | PData c => exists rows', dpage_segs b ps pos (pg_header p) c = Ok (l, rows')
  | PIndex c => exists hb ib, phdr_enc b (pg_header p) = Ok hb /\ len hb = 32 /\ enc_fields b ihdr_fields (ihdr_vals (ic_header c)) = Ok ib /\
                  l = [(pos, hb ++ ib ++ flat_map (le_enc 4) (ic_entries c) ++ index_tail ps (ih_num (ic_header c)))]
  end.
Lemma rows_inside_segs b base : forall rows hi l rows', Forall (fun x => exists n, row_inside b (snd x) n /\ fst x + n <= hi) rows ->
  rows_segs b base rows = Ok (l, rows') -> segs_within base (base + hi) l.
Proof.
  induction rows as [|[o r] rows IH]; intros hi l rows' HT H; cbn [rows_segs] in H; [injection H as <- <-; constructor|].
  inversion HT as [|? ? (n & HI & HN) HT2]; subst. cbn [fst snd] in *. destruct (row_segs b r (base + o)) as [[[ls r'] p]| |] eqn:E; [|easy|easy]. cbn [res_bind] in H.
  destruct (rows_segs b base rows) as [[l2 rest']| |] eqn:E2; [|easy|easy]. cbn [res_bind] in H. injection H as <- <-.
  apply Forall_app. split; [|now apply (IH hi l2 rest')]. apply HI in E. eapply Forall_impl; [|exact E]. cbv beta. intros; lia.
Qed.
Lemma page_write_pieces b db ps p buf pos s : page_inside b db ps p -> page_write b ps p (buf, pos) = Ok s ->
  exists l, page_pieces b ps pos p l /\ s = (write_segs buf l, pos + ps) /\ segs_within pos (pos + ps) l.
Proof.
  destruct p as [h [c|c]]; intros [HH HI] HW; unfold page_pieces; cbn [pg_content pg_header] in *.
  - destruct HI as (H1 & H2 & H3 & H4 & H5). rewrite (dpage_write_segs db) in HW by (easy || lia).
    destruct (dpage_segs b ps pos h c) as [[l rows']| |] eqn:HE; [|easy|easy]. cbn [res_bind] in HW. exists l. split; [now exists rows'|]. split; [congruence|].
    destruct (hdr_bytes_ok db b h c HH H2) as (hb & dh & E1 & L1 & E2 & L2 & E3). unfold dpage_segs in HE. rewrite E3 in HE. cbn [res_bind] in HE.
    destruct (rows_segs b (pos + 40) (dc_rows c)) as [[lr rows0]| |] eqn:ER; [|easy|easy]. cbn [res_bind] in HE. injection HE as <- <-.
    destruct (groups_within (dc_groups c) (pos + ps) H3) as [W D]; [lia|]. apply (rows_inside_segs b _ _ (ps - 40)) in ER; [|easy].
    pose proof (footer_le (dc_groups c)). constructor; [unfold seg_end; cbn [fst snd]; rewrite len_app; lia|].
    apply Forall_app. split; [eapply Forall_impl; [|exact W]|eapply Forall_impl; [|exact ER]]; cbv beta; intros; lia.
  - destruct HI as (H1 & H2 & H3 & H4). destruct s as [buf' p']. destruct (index_page_size db b ps h c buf pos buf' p') as [_ [_ HS]]; try easy.
    assert (p' = pos + ps) as -> by now apply HS. clear HS. destruct (ipage_write_eq db b ps h c buf pos H1 HH H3) as (hb & ib & E1 & L1 & E2 & L2 & E). rewrite E in HW. clear E.
    destruct ((ps - 80) / 4 <? ih_num (ic_header c)) eqn:EN; [easy|]. cbv zeta in HW. set (x := hb ++ ib ++ flat_map (le_enc 4) (ic_entries c) ++ index_tail ps (ih_num (ic_header c))) in *.
    exists [(pos, x)]. split; [now exists hb, ib|]. cbn [write_segs]. assert (pos + len x = pos + ps) as EL by congruence. split; [congruence|].
    constructor; [|constructor]. unfold seg_end. cbn [fst snd]. lia.
Qed.

(** Where a byte is written. *)
Lemma segs_within_covered lo hi l i : segs_within lo hi l -> covered l i -> lo <= i < hi.
Proof.
  intros HW HC. apply Exists_exists in HC as (s & Hs & HC). unfold segs_within in HW. rewrite Forall_forall in HW. specialize (HW s Hs). lia.
Qed.
(** All pages: [ls] are the pieces of each page. *)
Definition page_at (d0 ps k : N) : N := d0 + k * ps.
Lemma pages_write_pieces b db ps : forall pages buf pos buf' pos',
  Forall (fun e => match e with Some p => page_inside b db ps p | None => True end) pages ->
  wr_all (map (lpage_write b ps) pages) (buf, pos) = Ok (buf', pos') ->
  pos' = pos + len pages * ps /\
  exists ls, len ls = len pages /\ buf' = write_segs buf (concat ls) /\
    forall k l, getN ls k = Some l -> segs_within (pos + k * ps) (pos + k * ps + ps) l /\
      match getN pages k with Some (Some p) => page_pieces b ps (pos + k * ps) p l | _ => l = [] end.
Proof.
  induction pages as [|e pages IH]; intros buf pos buf' pos' HF HW.
  - cbn in HW. injection HW as <- <-. split; [rewrite (@len_nil (option page)); lia|]. exists []. split; [easy|]. split; [easy|]. intros k l H. apply getN_Some_lt in H. rewrite (@len_nil (list seg)) in H. lia.
  - inversion HF as [|? ? HE HF']; subst. cbn [map wr_all] in HW. unfold wr_seq in HW.
    assert (exists l1, lpage_write b ps e (buf, pos) = Ok (write_segs buf l1, pos + ps) /\ segs_within pos (pos + ps) l1 /\
      match e with Some p => page_pieces b ps pos p l1 | None => l1 = [] end) as (l1 & E1 & W1 & P1).
    { destruct e as [p|]; cbn [lpage_write] in *.
      - destruct (page_write b ps p (buf, pos)) as [s| |] eqn:E; [|easy|easy]. destruct (page_write_pieces b db ps p buf pos s HE E) as (l & P & -> & W).
        now exists l.
      - exists []. cbn [write_segs]. split; [|split; [constructor|easy]]. unfold wr_seek_rel. cbv beta iota zeta. destruct (Z.of_N pos + Z.of_N ps <? 0)%Z eqn:E; [lia|].
        do 2 f_equal. lia. }
    rewrite E1 in HW. cbn [res_bind] in HW. destruct (IH _ _ _ _ HF' HW) as (-> & ls & HL & -> & HP). split; [rewrite len_cons; lia|].
    exists (l1 :: ls). split; [now rewrite !len_cons, HL|]. split; [cbn [concat]; now rewrite write_segs_app|].
    intros k l HK. rewrite getN_cons in HK. rewrite getN_cons. destruct (k =? 0) eqn:EK.
    + assert (k = 0) as -> by lia. injection HK as ->. rewrite N.mul_0_l, N.add_0_r. split; [easy|]. now destruct e.
    + destruct (HP _ _ HK) as [W P]. assert (pos + ps + (k - 1) * ps = pos + k * ps) as EP by (rewrite <- (N.sub_add 1 k) at 2 by lia; lia). rewrite EP in *. now split.
Qed.
Lemma concat_covered (ls : list (list seg)) i : covered (concat ls) i -> exists k l, getN ls k = Some l /\ covered l i.
Proof.
  induction ls as [|l ls IH]; cbn [concat]; intro H; [now apply Exists_nil in H|]. apply Exists_app in H as [H|H].
  - exists 0, l. split; [apply getN_0|easy].
  - destruct (IH H) as (k & l' & E & C). exists (k + 1), l'. rewrite getN_cons. replace (k + 1 =? 0) with false by lia. now rewrite N.add_sub.
Qed.

(** ** Flushing *)
Definition all_inside (b : build) (d : database) : Prop :=
  forall k p, getN (db_pages d) k = Some (Some p) -> page_inside b (db_kind d) (dh_page_size (db_header d)) p.
Definition header_page (h : dbhdr) : list N := dbhdr_enc h ++ zeros (dh_page_size h - len (dbhdr_enc h)).
Lemma len_header_page h : 28 + 16 * len (dh_tables h) <= dh_page_size h -> len (header_page h) = dh_page_size h.
Proof. intro H. unfold header_page. rewrite len_app, len_zeros, len_dbhdr_enc. lia. Qed.
Lemma flush_pieces b d d' : 28 + 16 * len (dh_tables (db_header d)) <= dh_page_size (db_header d) -> all_inside b d -> flush b d = DOk d' ->
  db_kind d' = db_kind d /\ db_header d' = db_header d /\ db_pages d' = db_pages d /\
  exists ls, len ls = len (db_pages d) /\ db_io d' = write_segs (db_io d) ((0, header_page (db_header d)) :: concat ls) /\
    let ps := dh_page_size (db_header d) in
    forall k l, getN ls k = Some l -> segs_within ((k + 1) * ps) ((k + 2) * ps) l /\
      match getN (db_pages d) k with Some (Some p) => page_pieces b ps ((k + 1) * ps) p l | _ => l = [] end.
Proof.
  intros HL HI HF. unfold flush, db_write in HF. cbv zeta in HF. fold (header_page (db_header d)) in HF. unfold wr_seq at 1 in HF. cbn [wr_bytes res_bind] in HF.
  rewrite N.add_0_l, len_header_page in HF by easy. set (ps := dh_page_size (db_header d)) in *.
  destruct (wr_all (map (lpage_write b ps) (db_pages d)) (write_at (db_io d) 0 (header_page (db_header d)), ps)) as [[io q]| |] eqn:E; [|easy|easy].
  injection HF as <-. cbn [db_io db_kind db_header db_pages]. repeat (split; [easy|]).
  apply (pages_write_pieces b (db_kind d)) in E as (_ & ls & HLS & -> & HP).
  - exists ls. split; [easy|]. split; [easy|]. cbv zeta. intros k l HK. apply HP in HK. replace ((k + 1) * ps) with (ps + k * ps) by lia.
    replace ((k + 2) * ps) with (ps + k * ps + ps) by lia. exact HK.
  - apply Forall_forall. intros [p|] HIN; [|easy]. apply in_getN in HIN as (k & HK). now apply (HI k).
Qed.
(** Bytes of the file that are neither in the first page nor in a loaded page. *)
Definition unloaded_byte (d : database) (i : N) : Prop :=
  let ps := dh_page_size (db_header d) in ps <= i /\ forall p, getN (db_pages d) (i / ps - 1) <> Some (Some p).
Lemma flush_frame b d d' i : 28 + 16 * len (dh_tables (db_header d)) <= dh_page_size (db_header d) -> all_inside b d -> flush b d = DOk d' ->
  i < len (db_io d) -> unloaded_byte d i -> getN (db_io d') i = getN (db_io d) i.
Proof.
  intros HL HI HF Hi [HU1 HU2]. apply flush_pieces in HF as (_ & _ & _ & ls & HLS & -> & HP); try easy. set (ps := dh_page_size (db_header d)) in *. cbv zeta in HP.
  apply write_segs_frame; [easy|]. intro HC. apply Exists_cons in HC as [HC|HC].
  - unfold seg_end in HC. cbn [fst snd] in HC. rewrite len_header_page in HC by easy. fold ps in HC. lia.
  - apply concat_covered in HC as (k & l & HK & HC). apply HP in HK as [HW HK]. pose proof (segs_within_covered _ _ _ _ HW HC) as HR.
    assert (i / ps = k + 1) as EQ. { symmetry. apply (N.div_unique i ps (k + 1) (i - (k + 1) * ps)); lia. }
    rewrite EQ, N.add_sub in HU2. destruct (getN (db_pages d) k) as [[p|]|]; [now apply (HU2 p)| |]; subst l; now apply Exists_nil in HC.
Qed.
Lemma flush_len b d d' : 28 + 16 * len (dh_tables (db_header d)) <= dh_page_size (db_header d) -> all_inside b d -> flush b d = DOk d' ->
  (forall k p, getN (db_pages d) k = Some (Some p) -> (k + 2) * dh_page_size (db_header d) <= len (db_io d)) -> dh_page_size (db_header d) <= len (db_io d) ->
  len (db_io d') = len (db_io d).
Proof.
  intros HL HI HF HA HB. apply flush_pieces in HF as (_ & _ & _ & ls & HLS & -> & HP); try easy. set (ps := dh_page_size (db_header d)) in *. cbv zeta in HP.
  apply write_segs_len_eq; [easy|]. constructor.
  - unfold seg_end. cbn [fst snd]. rewrite len_header_page by easy. easy.
  - apply Forall_forall. intros s HS. apply in_concat in HS as (l & HIN & HS). apply in_getN in HIN as (k & HK). apply HP in HK as [HW HK].
    unfold segs_within in HW. rewrite Forall_forall in HW. specialize (HW s HS). destruct (getN (db_pages d) k) as [[p|]|] eqn:EG; [|subst l; easy|subst l; easy].
    specialize (HA k p EG). lia.
Qed.
Lemma concat_split (ls : list (list seg)) : forall k l, getN ls k = Some l -> exists a c, ls = a ++ l :: c /\ len a = k.
Proof.
  induction ls as [|x ls IH]; intros k l H; [apply getN_Some_lt in H; rewrite len_nil in H; lia|]. rewrite getN_cons in H. destruct (k =? 0) eqn:E.
  - injection H as ->. exists [], ls. split; [easy|]. rewrite len_nil. lia.
  - destruct (IH _ _ H) as (a & c & -> & HA). exists (x :: a), c. split; [easy|]. rewrite len_cons. lia.
Qed.
(** The pieces of a page survive all writes that follow. *)
Lemma flush_segs_in b d d' k p : 28 + 16 * len (dh_tables (db_header d)) <= dh_page_size (db_header d) -> all_inside b d -> flush b d = DOk d' ->
  getN (db_pages d) k = Some (Some p) -> 
  exists l, page_pieces b (dh_page_size (db_header d)) ((k + 1) * dh_page_size (db_header d)) p l /\
    segs_within ((k + 1) * dh_page_size (db_header d)) ((k + 2) * dh_page_size (db_header d)) l /\
    (segs_disj l -> Forall (fun s => snd s <> []) l -> segs_in (db_io d') l).
Proof.
  intros HL HI HF HK. apply flush_pieces in HF as (_ & _ & _ & ls & HLS & -> & HP); try easy. set (ps := dh_page_size (db_header d)) in *. cbv zeta in HP.
  destruct (getN_lt_Some ls k) as [l E]; [apply getN_Some_lt in HK; lia|]. pose proof (HP k l E) as [HW HPP]. rewrite HK in HPP. exists l. split; [easy|]. split; [easy|]. intros HD HN.
  destruct (concat_split ls k l E) as (a & c & -> & HA). rewrite concat_app. cbn [concat]. rewrite app_comm_cons, write_segs_app, write_segs_app.
  assert (segs_in (write_segs (write_segs (db_io d) ((0, header_page (db_header d)) :: concat a)) l) l) as HS.
  { apply write_segs_in; [easy|]. eapply Forall_impl; [|exact HN]. cbv beta. now left. }
  unfold segs_in in *. rewrite Forall_forall in *. intros [q xs] Hs. apply has_write_segs_other; [now apply (HS (q, xs))|].
  apply Forall_forall. intros t Ht. apply in_concat in Ht as (l2 & HIN & Ht). apply in_getN in HIN as (j & HJ).
  assert (getN (a ++ l :: c) (k + 1 + j) = Some l2) as HJ2. { rewrite getN_app. replace (k + 1 + j <? len a) with false by lia. rewrite getN_cons, HA.
    replace (k + 1 + j - k =? 0) with false by lia. now replace (k + 1 + j - k - 1) with j by lia. }
  apply HP in HJ2 as [HW2 _]. unfold segs_within in *. rewrite Forall_forall in *. specialize (HW _ Hs). specialize (HW2 _ Ht). left. 
  assert ((k + 2) * ps <= (k + 1 + j + 1) * ps) as HM by (apply N.mul_le_mono_r; lia).
  destruct HW, HW2; eapply N.le_trans; [eassumption|]; eapply N.le_trans; eassumption.
Qed.
Lemma flush_header b d d' : 28 + 16 * len (dh_tables (db_header d)) <= dh_page_size (db_header d) -> all_inside b d -> flush b d = DOk d' ->
  has (db_io d') 0 (header_page (db_header d)).
Proof.
  intros HL HI HF. apply flush_pieces in HF as (_ & _ & _ & ls & HLS & -> & HP); try easy. set (ps := dh_page_size (db_header d)) in *. cbv zeta in HP.
  cbn [write_segs]. apply has_write_segs_other.
  - apply has_write_same. intro E. pose proof (len_header_page (db_header d) HL) as X. rewrite E, len_nil in X. lia.
  - apply Forall_forall. intros t Ht. apply in_concat in Ht as (l2 & HIN & Ht). apply in_getN in HIN as (j & HJ). apply HP in HJ as [HW _].
    unfold segs_within in *. rewrite Forall_forall in *. specialize (HW _ Ht). left. unfold seg_end at 1. cbn [fst snd]. rewrite len_header_page by easy. fold ps. lia.
Qed.

(** ** Reopening *)
Definition page_consistent (b : build) (db : dbtype) (ps : N) (p : page) : Prop :=
  match pg_content p with
  | PData c => dpage_ok dstr_good db ps (pg_header p) c /\ page_tidy b ps c
  | PIndex c => phdr_ok db (pg_header p) /\ is_index_page (ph_flags (pg_header p)) = true /\ ihdr_ok (ic_header c) /\ Forall is_u32 (ic_entries c) /\
                len (ic_entries c) = ih_num (ic_header c) /\ 80 <= ps /\ ps mod 4 = 0
  end.
Definition page_reads_as (b : build) (p q : page) : Prop :=
  match pg_content p with PData c => reads_as b (pg_header p) c q | PIndex _ => q = p end.
Lemma tidy_inside b : forall rows lo hi, tidy b lo rows hi -> Forall (fun x => exists n, row_inside b (snd x) n /\ fst x + n <= hi) rows.
Proof.
  induction rows as [|[o r] rows IH]; intros lo hi H; constructor; cbn [tidy fst snd] in *; destruct H as (H & n & HF & HT).
  - exists n. split; [now apply row_fits_inside|]. now apply tidy_le in HT.
  - now apply (IH (o + n)).
Qed.
Lemma consistent_inside b db ps p : page_consistent b db ps p -> page_inside b db ps p.
Proof.
  destruct p as [h [c|c]]; unfold page_consistent, page_inside; cbn [pg_content pg_header].
  - intros [(P1 & P2 & P3 & P4 & P5 & P6 & P7 & _) (T1 & T2 & T3)]. split; [easy|]. split; [easy|]. split; [easy|]. split; [easy|]. split; [easy|].
    apply tidy_inside in T3. eapply Forall_impl; [|exact T3]. cbv beta. intros x (n & H1 & H2). exists n. split; [easy|lia].
  - intros (H1 & H2 & H3 & H4 & H5 & H6 & H7). exact (conj H1 (conj H6 (conj H7 (conj H3 H5)))).
Qed.
(** A page whose pieces are stored is read back. *)
Lemma consistent_pieces b db ps pos p l : page_consistent b db ps p -> page_pieces b ps pos p l -> segs_disj l /\ Forall (fun s => snd s <> []) l.
Proof.
  intros HC HP. destruct p as [h [c|c]]; unfold page_consistent, page_pieces in *; cbn [pg_content pg_header] in *.
  - destruct HC as [HO HT]. destruct HP as [rows' HE]. destruct (page_tidy_segs b _ _ ps _ h c l rows' HO HT HE) as [HD _].
    split; [easy|]. now apply (dpage_segs_nonempty b _ _ ps _ h c l rows' HO HE).
  - destruct HP as (hb & ib & E1 & L1 & E2 & ->). split; [cbn; split; [constructor|easy]|]. constructor; [|constructor]. cbn [snd]. destruct hb; [discriminate L1|easy].
Qed.
Lemma stored_reads b db ps pos p l io : page_consistent b db ps p -> page_pieces b ps pos p l -> segs_in io l ->
  exists q z, rd_page b (rd_dstr b) ps db io pos = Ok (q, z) /\ page_reads_as b p q.
Proof.
  intros HC HP HS. destruct (consistent_pieces b db ps pos p l HC HP) as [HD HNE].
  destruct p as [h [c|c]]; unfold page_consistent, page_pieces, page_reads_as in *; cbn [pg_content pg_header] in *.
  - destruct HC as [HO HT]. destruct HP as [rows' HE]. pose proof HO as (P1 & P2 & P3 & P4 & P5 & P6 & P7 & _).
    destruct (dpage_wr b (rd_dstr b) dstr_good db ps h c io pos l rows') as (q & R & Q).
    + apply dstr_good_wr.
    + easy.
    + destruct HT as [HT _]. lia.
    + easy.
    + easy.
    + eexists _, _. split; [exact R|]. now apply (page_same_reads_as b ps pos h c l rows').
  - destruct HC as (C1 & C2 & C3 & C4 & C5 & C6 & C7). destruct HP as (hb & ib & E1 & L1 & E2 & ->).
    eexists (mk_page h (PIndex c)), _. split; [|easy]. apply (ipage_wr b (rd_dstr b) db ps h c hb ib); try easy.
    inversion HS as [|? ? HX1 _]; subst. cbn [fst snd] in HX1. rewrite !app_assoc in HX1. apply has_app in HX1 as [HX1 _]. now rewrite <- !app_assoc in HX1.
Qed.
Lemma flush_reopen b d d' : dbhdr_ok (db_kind d) (db_header d) -> 28 + 16 * len (dh_tables (db_header d)) <= dh_page_size (db_header d) ->
  len (db_pages d) = dh_next (db_header d) - 1 -> all_inside b d -> flush b d = DOk d' ->
  exists d2, db_open (db_io d') (db_kind d) = DOk d2 /\ db_header d2 = db_header d /\ len (db_pages d2) = len (db_pages d) /\
    forall k p, getN (db_pages d) k = Some (Some p) -> page_consistent b (db_kind d) (dh_page_size (db_header d)) p ->
      exists q, snd (load_page b d2 (k + 1)) = DOk q /\ page_reads_as b p q.
Proof.
  intros HO HL HN HI HF. pose proof (flush_header b d d' HL HI HF) as HH. apply has_app in HH as [HH _]. apply (dbhdr_wr (db_kind d)) in HH; [|easy].
  unfold db_open. rewrite HH. eexists. split; [reflexivity|]. cbn [db_header db_pages]. split; [easy|].
  assert (len (repeat (@None page) (N.to_nat (dh_next (db_header d) - 1))) = len (db_pages d)) as HLL by (unfold len in *; rewrite repeat_length; lia).
  split; [easy|]. intros k p HK HC.
  destruct (flush_segs_in b d d' k p HL HI HF HK) as (l & HP & _ & HS). set (ps := dh_page_size (db_header d)) in *.
  pose proof (getN_Some_lt _ _ _ HK) as HKL. destruct HO as (O1 & O2 & O3 & _). fold ps in O1. unfold is_u32 in *.
  rewrite load_page_present by (cbn [db_pages]; lia). cbn [db_pages]. rewrite N.add_sub.
  assert (getN (repeat (@None page) (N.to_nat (dh_next (db_header d) - 1))) k = Some None) as ->.
  { destruct (getN_lt_Some (repeat (@None page) (N.to_nat (dh_next (db_header d) - 1))) k) as [x E]; [lia|]. rewrite E. f_equal.
    assert (In x (repeat (@None page) (N.to_nat (dh_next (db_header d) - 1)))) as X by (apply in_getN; now exists k). now apply repeat_spec in X. }
  rewrite read_page_eq by (cbn [db_header]; lia || easy). cbn [db_header db_kind db_io]. fold ps.
  destruct (consistent_pieces _ _ _ _ _ _ HC HP) as [HD HNE]. destruct (stored_reads b (db_kind d) ps ((k + 1) * ps) p l (db_io d') HC HP (HS HD HNE)) as (q & z & R & Q).
  exists q. now rewrite R.
Qed.
