(** * Reading databases: when it can panic *)
From Coq Require Import NArith ZArith List Bool Lia.
From Coq Require Import ZifyBool ZifyNat ZifyN.
From Verif Require Import Base BaseFacts Segs Utf Str StrFacts Schema SchemaFacts EnumFacts Oa OaFacts Rows RowFacts Page BitFacts AllocFacts Db DbFacts DbFlush DbFresh Anlz AnlzLoop AnlzPanic DumpFacts.
Import ListNotations.
Open Scope N_scope.

Lemma np_le buf n : np buf (rd_le n).
Proof. intro. apply rd_le_no_panic. Qed.
Lemma np_magic buf n m : np buf (magic_le n m).
Proof. intro. apply magic_le_no_panic. Qed.
Lemma np_fields buf rs fs : np buf rs -> np buf (rd_fields rs fs).
Proof. intros H pos. now apply fields_no_panic. Qed.
Lemma np_no_rs buf : np buf no_rs. Proof. easy. Qed.
Lemma np_seek_to buf p : np buf (seek_to p). Proof. easy. Qed.
Lemma np_seek_rel buf z : np buf (seek_rel z).
Proof. intro pos. unfold seek_rel. now destruct (_ <? 0)%Z. Qed.
Lemma np_tell buf : np buf tell. Proof. easy. Qed.
Lemma int_vals e n buf pos v p : rd_field no_rs (FInt e n) buf pos = Ok (v, p) -> exists x, v = VInt x.
Proof. intro H. cbn [rd_field] in H. apply bind_inv in H as (x & q & _ & H). apply ret_inv in H as [<- _]. eauto. Qed.
Lemma magic_vals e n m buf pos v p : rd_field no_rs (FMagic e n m) buf pos = Ok (v, p) -> v = VUnit.
Proof. intro H. cbn [rd_field] in H. apply bind_inv in H as (x & q & _ & H). apply bind_inv in H as (y & q' & _ & H). now apply ret_inv in H as [<- _]. Qed.
Lemma fields_cons_inv rs f fs buf pos vs p : rd_fields rs (f :: fs) buf pos = Ok (vs, p) ->
  exists v ws p1, vs = v :: ws /\ rd_field rs f buf pos = Ok (v, p1) /\ rd_fields rs fs buf p1 = Ok (ws, p).
Proof.
  cbn [rd_fields]. intro H. apply bind_inv in H as (v & p1 & HV & H). apply bind_inv in H as (ws & p2 & HW & H). apply ret_inv in H as [<- <-]. exists v, ws, p1. easy.
Qed.
Ltac shape H :=
  let HF := fresh "HF" in let HR := fresh "HR" in
  lazymatch type of H with
  | rd_fields no_rs [] _ _ = _ => cbn [rd_fields] in H; apply ret_inv in H as [<- _]
  | rd_fields no_rs (FMagic _ _ _ :: _) _ _ = _ => apply fields_cons_inv in H as (? & ? & ? & -> & HF & HR); apply magic_vals in HF as ->; shape HR
  | rd_fields no_rs (FInt _ _ :: _) _ _ = _ => apply fields_cons_inv in H as (? & ? & ? & -> & HF & HR); apply int_vals in HF as [? ->]; shape HR
  end.
Lemma np_phdr buf db : np buf (rd_phdr db).
Proof.
  unfold rd_phdr. apply np_bind; [apply np_fields, np_no_rs|]. intros vs pos pos' H. unfold phdr_fields, u32f, u16f, u8f in H. shape H. easy.
Qed.
Lemma np_icontent buf : np buf rd_icontent.
Proof.
  unfold rd_icontent. apply np_bind; [apply np_fields, np_no_rs|]. intros vs pos pos' H. unfold ihdr_fields, u32f, u16f, u8f in H. shape H.
  cbn [ihdr_of]. match goal with |- ?p buf _ <> _ => assert (np buf p) as K; [|apply K] end.
  apply np_bind'; [now apply np_lift|]. intro. apply np_bind'; [apply np_count, np_le|]. intro. apply np_ret.
Qed.
Lemma np_rgroup buf : np buf rd_rgroup.
Proof.
  unfold rd_rgroup. apply np_bind'; [apply np_seek_rel|intro]. apply np_bind'; [apply np_count, np_le|intro]. apply np_bind'; [apply np_le|intro].
  apply np_bind'; [apply np_le|intro]. apply np_bind'; [apply np_seek_rel|intro]. apply np_ret.
Qed.
Lemma np_rows_at buf rs pt base : np buf rs -> forall os acc, rd_rows_at rs pt base os acc buf <> Panic.
Proof.
  intros HS. induction os as [|o os IH]; intro acc; cbn [rd_rows_at]; [easy|]. pose proof (row_no_panic rs pt buf HS (base + o)) as H.
  destruct (rd_row rs pt buf (base + o)) as [[r q]|e|]; [apply IH|easy|easy].
Qed.
Lemma heap_np b ps : b = Release \/ 40 <= ps -> page_heap_size b ps <> Panic.
Proof.
  intros [->|H]; unfold page_heap_size.
  - apply res_bind_np; [apply wsub_release|]. intro. apply wsub_release.
  - rewrite wsub_ok by lia. cbn [res_bind]. rewrite wsub_ok by lia. easy.
Qed.
Lemma np_page buf b rs ps db : np buf rs -> b = Release \/ 40 <= ps -> np buf (rd_page b rs ps db).
Proof.
  intros HS HP. unfold rd_page. apply np_bind'; [apply np_phdr|]. intro h. destruct (is_index_page (ph_flags h)).
  - apply np_bind'; [apply np_icontent|]. intro. apply np_ret.
  - apply np_bind'; [|intro; apply np_ret]. unfold rd_dcontent. apply np_bind'; [apply np_fields, np_no_rs|intro]. apply np_bind'; [apply np_lift; now apply heap_np|intro].
    apply np_bind'; [apply np_tell|intro]. apply np_bind'; [apply np_seek_to|intro]. apply np_bind'; [apply np_count, np_rgroup|intro].
    apply np_bind'; [apply np_seek_to|intro]. apply np_bind'.
    { intro pos. pose proof (np_rows_at buf rs (ph_type h) a1 HS (flat_map present_offsets a3) []) as H. now destruct (rd_rows_at _ _ _ _ _ _). }
    intro. apply np_bind'; [apply np_guard|intro]. apply np_bind'; [apply np_seek_to|intro]. apply np_ret.
Qed.
Lemma np_dstr_release buf : bytes_ok buf -> np buf (rd_dstr Release).
Proof. intros HB pos H. apply rd_dstr_panic in H as [H _]; easy. Qed.
Lemma np_dbhdr k buf : np buf (rd_dbhdr k).
Proof.
  unfold rd_dbhdr. apply np_bind'; [apply np_magic|intro]. do 5 (apply np_bind'; [apply np_le|intro]). apply np_bind'; [apply np_magic|intro].
  apply np_bind'; [|intro; apply np_ret]. apply np_count. unfold rd_table, rd_ptype. apply np_bind'; [apply np_bind'; [apply np_le|intro; apply np_ret]|intro].
  do 3 (apply np_bind'; [apply np_le|intro]). apply np_ret.
Qed.
Lemma open_no_panic io k : db_open io k <> DPanic.
Proof. unfold db_open. pose proof (np_dbhdr k io 0) as H. now destruct (rd_dbhdr k io 0) as [[h q]| |]. Qed.

(** A string length that the reader of debug builds subtracts too much from. *)
Definition bad_string (buf : list N) (pos : N) : Prop :=
  getN buf pos = Some 1 \/
  exists h lo hi, getN buf pos = Some h /\ h mod 2 = 0 /\ getN buf (pos + 1) = Some lo /\ getN buf (pos + 2) = Some hi /\ lo + 256 * hi < 4.
Lemma bad_string_search buf : bytes_ok buf -> (exists pos, bad_string buf pos) \/ np buf (rd_dstr Debug).
Proof.
  intro HB. set (f := fun i => match rd_dstr Debug buf (N.of_nat i) with Panic => true | _ => false end).
  destruct (existsb f (seq 0 (length buf))) eqn:E.
  - left. apply existsb_exists in E as (i & _ & E). exists (N.of_nat i). unfold f in E. destruct (rd_dstr Debug buf (N.of_nat i)) eqn:ER; try easy.
    now apply rd_dstr_panic in ER as [_ ER].
  - right. intros pos H. pose proof H as H2. apply rd_dstr_panic in H2 as [_ H2]; [|easy].
    assert (pos < len buf) as HL by (destruct H2 as [H2|(? & ? & ? & H2 & _)]; now apply getN_Some_lt in H2).
    rewrite existsb_false in E. specialize (E (N.to_nat pos)). unfold f in E. rewrite N2Nat.id, H in E. unfold len in HL.
    discriminate E. apply in_seq. lia.
Qed.

(** ** Databases *)
Lemma read_page_np d i : bytes_ok (db_io d) -> read_page Release d i <> DPanic.
Proof.
  intro HB. unfold read_page, page_offset. pose proof (wmul_release 64 i (dh_page_size (db_header d))) as HW. destruct (wmul Release 64 i (dh_page_size (db_header d))) as [off| |]; [|easy|easy].
  cbn [res_bind]. pose proof (np_page (db_io d) Release (rd_dstr Release) (dh_page_size (db_header d)) (db_kind d) (np_dstr_release _ HB) (or_introl eq_refl) off) as H.
  now destruct (rd_page _ _ _ _ _ _) as [[p q]| |].
Qed.
Lemma read_page_debug d i : bytes_ok (db_io d) -> 40 <= dh_page_size (db_header d) -> i * dh_page_size (db_header d) < 2 ^ 64 -> read_page Debug d i = DPanic ->
  exists pos, bad_string (db_io d) pos.
Proof.
  intros HB HP HI H. destruct (bad_string_search (db_io d) HB) as [HS|HS]; [easy|]. exfalso. unfold read_page, page_offset in H. rewrite wmul_ok in H by easy. cbn [res_bind] in H.
  pose proof (np_page (db_io d) Debug (rd_dstr Debug) (dh_page_size (db_header d)) (db_kind d) HS (or_intror HP) (i * dh_page_size (db_header d))) as K.
  now destruct (rd_page _ _ _ _ _ _) as [[p q]| |].
Qed.
(** Only the pages in memory differ. *)
Definition same_file (d d' : database) : Prop := db_io d' = db_io d /\ db_kind d' = db_kind d /\ db_header d' = db_header d /\ len (db_pages d') = len (db_pages d).
Lemma same_refl d : same_file d d. Proof. easy. Qed.
Lemma same_trans d1 d2 d3 : same_file d1 d2 -> same_file d2 d3 -> same_file d1 d3.
Proof. intros (A1 & A2 & A3 & A4) (B1 & B2 & B3 & B4). unfold same_file. now rewrite B1, B2, B3, B4. Qed.
Lemma load_entry_same b d k i : same_file d (fst (load_entry b d k i)).
Proof.
  unfold load_entry. destruct (getN (db_pages d) k) as [[q|]|]; [easy| |easy]. destruct (read_page b d i); [|easy|easy].
  cbn [fst]. unfold with_pages, same_file. cbn. now rewrite len_set_nth.
Qed.
Lemma iter_next_same b d it d1 it1 r : iter_next b d it = (d1, it1, r) -> same_file d d1.
Proof.
  intro H. apply iter_next_cases in H as [(_ & -> & -> & ->)|[(i & E1 & E2 & -> & -> & ->)|[(i & E1 & E2 & E3 & -> & -> & ->)|(i & r1 & E1 & E2 & E3 & EL & _)]]]; try easy.
  pose proof (load_entry_same b d (it_base it + (i - it_off it)) i) as H. now rewrite EL in H.
Qed.
(** A panic of the iterator is a panic of reading a page of the database. *)
Lemma iter_next_panic b d it d1 it1 : it_inv d it -> iter_next b d it = (d1, it1, DPanic) -> exists i, i <= len (db_pages d) /\ read_page b d i = DPanic.
Proof.
  intros HI H. apply iter_next_cases in H as [(_ & _ & _ & H)|[(i & _ & _ & _ & _ & H)|[(i & _ & _ & _ & _ & _ & H)|(i & r1 & E1 & E2 & E3 & EL & _ & _ & _ & _ & H)]]]; try easy.
  destruct r1 as [p|e|]; destruct H as [H _]; try easy. destruct HI as [HI|[HI HL]]; [lia|]. exists i. split; [lia|]. unfold load_entry in EL.
  assert (exists y, getN (db_pages d) (it_base it + (i - it_off it)) = Some y) as [y HY] by (apply getN_lt_Some; lia). rewrite HY in EL. destruct y as [q|]; [easy|].
  destruct (read_page b d i); try easy.
Qed.
Lemma collect_panic b : forall n d it, it_inv d it -> snd (collect_n b n d it) = Some DPanic -> exists d' i, same_file d d' /\ i <= len (db_pages d) /\ read_page b d' i = DPanic.
Proof.
  induction n as [|n IH]; intros d it HI H; [easy|]. cbn [collect_n] in H. destruct (iter_next b d it) as [[d1 it1] [[x|]|e|]] eqn:E; cbn [snd] in H; try easy.
  - destruct (iter_next_inv b d it d1 it1 _ HI E) as [HI1 HL1]. apply iter_next_same in E. specialize (IH d1 it1 HI1). destruct (collect_n b n d1 it1) as [d2 [[l|e|]|]]; cbn [snd] in *; try easy.
    destruct (IH eq_refl) as (d' & i & H1 & H2 & H3). exists d', i. rewrite HL1 in H2. split; [now apply (same_trans d d1)|easy].
  - apply iter_next_panic in E as (i & E1 & E2); [|easy]. exists d, i. now split.
Qed.
Lemma visits_unloaded b d d' last j q : loaded d d' j q -> page_of b d j q -> forall l i, visits b d' last i l -> visits b d last i l.
Proof.
  intros HL HP. assert (forall i p, page_of b d' i p -> page_of b d i p) as E by (intros i p H; now apply (page_of_loaded b d d' j q)).
  intros l i. induction 1; constructor; try easy; now apply E.
Qed.
(** Collecting rows panics if a page panics or a row of another type turns up. *)
Lemma rows_panic b k : forall n d it i, live d it -> it_next it = Some i -> snd (rows_n b k n d it) = Some DPanic ->
  (exists d' j, same_file d d' /\ j <= len (db_pages d) /\ read_page b d' j = DPanic) \/
  (exists l, it_off it <= i /\ visits b d (it_last it) i l /\ forallb (is_variant k) (rows_of l) = false).
Proof.
  induction n as [|n IH]; intros d it i HI HN H; [easy|]. cbn [rows_n] in H. destruct (iter_next b d it) as [[d1 it1] [[[j p]|]|e|]] eqn:E; cbn [snd] in H; try easy.
  - pose proof (iter_next_page_inv b d it d1 it1 j p HI E) as (H1 & H2 & H3). assert (j = i) as -> by congruence. clear H1.
    destruct (iter_next_page b d it i p HI HN H2 H3) as (d1' & it1' & E' & HV1 & HLD & HO1 & HL1 & HN1). assert (d1' = d1 /\ it1' = it1) as [-> ->] by (rewrite E' in E; now injection E).
    unfold rows_as in H. destruct (forallb (is_variant k) (rows_of_page p)) eqn:EV.
    + destruct (i =? it_last it) eqn:EL.
      * exfalso. destruct n as [|n]; [easy|]. cbn [rows_n] in H. unfold iter_next in H at 1. rewrite HN1 in H. easy.
      * specialize (IH d1 it1 _ HV1 HN1). destruct (rows_n b k n d1 it1) as [d2 [[l|e|]|]]; cbn [snd] in *; try easy.
        pose proof (iter_next_same _ _ _ _ _ _ E) as HS. pose proof HS as (_ & _ & _ & HSL).
        destruct (IH eq_refl) as [(d' & m & G1 & G2 & G3)|(l & G1 & G2 & G3)].
        -- left. exists d', m. rewrite HSL in G2. split; [now apply (same_trans d d1)|easy].
        -- right. exists ((i, p) :: l). split; [easy|]. split.
           ++ constructor; [lia|easy|lia|]. rewrite HL1 in G2. now apply (visits_unloaded b d d1 (it_last it) i p).
           ++ cbn [rows_of flat_map snd]. fold (rows_of l). now rewrite forallb_app, EV, G3.
    + right. exists [(i, p)]. split; [easy|]. split; [now constructor|]. cbn [rows_of flat_map snd]. now rewrite app_nil_r.
  - left. assert (it_inv d it) as HV by (destruct HI; now right). apply iter_next_panic in E as (m & E1 & E2); [|easy]. exists d, m. now split.
Qed.

(** ** Analysis files *)
Lemma loop_release final buf : forall n pos, sections_loop n Release final buf pos <> Some Panic.
Proof.
  induction n as [|n IH]; intro pos; cbn [sections_loop]; [easy|]. destruct (pos <? final); [|easy]. pose proof (section_release buf pos) as H.
  destruct (rd_section Release buf pos) as [[s q]| |]; [|easy|easy]. specialize (IH q). destruct (sections_loop n Release final buf q) as [[[l z]| |]|]; easy.
Qed.
Lemma anlz_release buf : np buf (rd_anlz Release).
Proof.
  unfold rd_anlz. apply np_bind'; [apply np_header|intro]. apply np_bind'; [apply np_guard|intro]. apply np_bind'; [apply np_lift, wsub_release|intro].
  apply np_bind'; [apply np_bytes|intro]. apply np_bind'; [apply np_lift, wsub_release|intro]. apply np_bind'; [|intro; apply np_ret].
  intro pos. unfold parse_sections. pose proof (wadd_release 64 pos a3) as HW. destruct (wadd Release 64 pos a3) as [final| |]; [|easy|easy].
  destruct (loop_some Release final buf (S (length buf)) pos) as [r Hr]; [unfold len; lia|]. rewrite Hr. intros ->. now apply loop_release in Hr.
Qed.
