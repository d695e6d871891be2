(** * Index pages *)
From Coq Require Import NArith ZArith List Bool Lia Sorted.
From Coq Require Import ZifyBool ZifyNat ZifyN.
From Verif Require Import Base BaseFacts Segs Str Schema SchemaFacts StrGood Oa OaFacts Rows RowFacts RowSpec EnumFacts Page BitFacts PageFacts PageRw.
Import ListNotations.
Ltac Zify.zify_post_hook ::= Z.div_mod_to_equations.
Open Scope N_scope.

Definition ihdr_ok (h : ihdr) : Prop :=
  is_u16 (ih_a h) /\ is_u16 (ih_b h) /\ is_u16 (ih_next_offset h) /\ is_u32 (ih_page h) /\ is_u32 (ih_next h) /\
  is_u16 (ih_num h) /\ is_u16 (ih_first_empty h).
Lemma ihdr_fields_ok h : ihdr_ok h -> fields_ok no_q ihdr_fields (ihdr_vals h).
Proof.
  intros (H1 & H2 & H3 & H4 & H5 & H6 & H7). unfold is_u32, is_u16 in *. unfold ihdr_fields, ihdr_vals, fields_ok.
  repeat (constructor; [cbn; try exact I; assumption|]). constructor.
Qed.
Lemma ihdr_of_vals h : ihdr_of (ihdr_vals h) = Ok h.
Proof. now destruct h. Qed.
Lemma ihdr_of_inv vs h : fields_ok no_q ihdr_fields vs -> ihdr_of vs = Ok h -> ihdr_ok h /\ vs = ihdr_vals h.
Proof.
  intros HF EH. unfold ihdr_fields in HF.
  repeat match goal with H : fields_ok _ (_ :: _) _ |- _ => inversion H; subst; clear H
                    | H : Forall2 (field_ok _) (_ :: _) _ |- _ => inversion H; subst; clear H
                    | H : Forall2 (field_ok _) [] _ |- _ => inversion H; subst; clear H end.
  repeat match goal with H : field_ok _ u32f ?v |- _ => destruct v; cbn in H; try easy
                    | H : field_ok _ u16f ?v |- _ => destruct v; cbn in H; try easy
                    | H : field_ok _ (FMagic _ _ _) ?v |- _ => destruct v; cbn in H; try easy end.
  cbn in EH. injection EH as <-. split; [|reflexivity]. unfold ihdr_ok. cbn [ih_a ih_b ih_next_offset ih_page ih_next ih_num ih_first_empty].
  repeat (split; [assumption|]). assumption.
Qed.
Lemma total_entries_ok b ps : 80 <= ps -> total_entries b ps = Ok ((ps - 80) / 4).
Proof.
  intro H. unfold total_entries. rewrite wsub_ok by lia. cbn [res_bind]. rewrite wsub_ok by lia. cbn [res_bind]. rewrite wsub_ok by lia.
  cbn [res_bind]. f_equal. f_equal. lia.
Qed.

(** The unused part of an index page as it is written. *)
Definition index_tail (ps num : N) : list N :=
  flat_map (le_enc 4) (repeat index_entry_empty (N.to_nat ((ps - 80) / 4 - num))) ++ zeros 20.
Lemma len_index_tail ps num : len (index_tail ps num) = 4 * ((ps - 80) / 4 - num) + 20.
Proof. unfold index_tail. rewrite len_app, len_flat4, repeat_length, len_zeros. lia. Qed.

Lemma ipage_write_eq db b ps h c buf pos :
  80 <= ps -> phdr_ok db h -> ihdr_ok (ic_header c) ->
  exists hb ib, phdr_enc b h = Ok hb /\ len hb = 32 /\ enc_fields b ihdr_fields (ihdr_vals (ic_header c)) = Ok ib /\ len ib = 28 /\
  page_write b ps (mk_page h (PIndex c)) (buf, pos) =
    if (ps - 80) / 4 <? ih_num (ic_header c) then Panic
    else let bs := hb ++ ib ++ flat_map (le_enc 4) (ic_entries c) ++ index_tail ps (ih_num (ic_header c)) in
         Ok (write_at buf pos bs, pos + len bs).
Proof.
  intros HP H1 H2. destruct (phdr_enc_ok db b h H1) as (hb & E1 & L1).
  destruct (fields_enc_size b no_q ihdr_fields (ihdr_vals (ic_header c))) as (ib & E2 & L2); [reflexivity|now apply ihdr_fields_ok|].
  exists hb, ib. repeat (split; [easy|]). unfold page_write. cbn [pg_header pg_content]. rewrite E1. cbn [res_bind wr_bytes].
  unfold icontent_enc. rewrite E2. cbn [res_bind]. rewrite total_entries_ok by easy. cbn [res_bind].
  destruct ((ps - 80) / 4 <? ih_num (ic_header c)); [reflexivity|]. cbn [res_bind wr_bytes]. unfold index_tail. cbv zeta.
  rewrite (write_at_app buf pos hb), (len_app hb). now rewrite N.add_assoc.
Qed.

(** C17 *)
Lemma index_page_size db b ps h c buf pos buf' p' :
  80 <= ps -> phdr_ok db h -> ihdr_ok (ic_header c) -> page_write b ps (mk_page h (PIndex c)) (buf, pos) = Ok (buf', p') ->
  p' = pos + 80 + 4 * len (ic_entries c) + 4 * ((ps - 80) / 4 - ih_num (ic_header c)) /\
  (p' = pos + ps <-> len (ic_entries c) = ih_num (ic_header c) /\ ps mod 4 = 0).
Proof.
  intros HP H1 H2 HW. destruct (ipage_write_eq db b ps h c buf pos HP H1 H2) as (hb & ib & _ & L1 & _ & L2 & E). rewrite E in HW. clear E.
  destruct ((ps - 80) / 4 <? ih_num (ic_header c)) eqn:EN; [easy|]. cbv zeta in HW. injection HW as _ <-.
  rewrite !len_app, len_flat4, len_index_tail, L1, L2. fold (len (ic_entries c)). unfold len at 1 2. unfold len. lia.
Qed.
Lemma index_page_panic db b ps h c buf pos :
  80 <= ps -> phdr_ok db h -> ihdr_ok (ic_header c) ->
  (page_write b ps (mk_page h (PIndex c)) (buf, pos) = Panic <-> (ps - 80) / 4 < ih_num (ic_header c)) /\
  forall e, page_write b ps (mk_page h (PIndex c)) (buf, pos) <> Err e.
Proof.
  intros HP H1 H2. destruct (ipage_write_eq db b ps h c buf pos HP H1 H2) as (hb & ib & _ & L1 & _ & L2 & E). rewrite E.
  destruct ((ps - 80) / 4 <? ih_num (ic_header c)) eqn:EN; split; try easy; split; try easy; lia.
Qed.
Lemma rd_u32s_has buf pos l :
  Forall is_u32 l -> has buf pos (flat_map (le_enc 4) l) -> rd_count (length l) (rd_le 4) buf pos = Ok (l, pos + 4 * N.of_nat (length l)).
Proof.
  intros HF HH. rewrite <- len_flat4. eapply rd_count_has; [|exact HF|exact HH]. intros v q HV H. rewrite len_le_enc.
  apply rd_le_has; [exact HV|exact H].
Qed.
Lemma ipage_wr b rs db ps h c hb ib buf pos :
  phdr_ok db h -> is_index_page (ph_flags h) = true -> ihdr_ok (ic_header c) -> Forall is_u32 (ic_entries c) ->
  len (ic_entries c) = ih_num (ic_header c) ->
  phdr_enc b h = Ok hb -> enc_fields b ihdr_fields (ihdr_vals (ic_header c)) = Ok ib ->
  has buf pos (hb ++ ib ++ flat_map (le_enc 4) (ic_entries c)) ->
  rd_page b rs ps db buf pos = Ok (mk_page h (PIndex c), pos + 60 + 4 * len (ic_entries c)).
Proof.
  intros H1 HI H2 HE HL E1 E2 HH. assert (len hb = 32) as L1 by (destruct (phdr_enc_ok db b h H1) as (x & EX & LX); congruence).
  assert (len ib = 28) as L2. { destruct (fields_enc_size b no_q ihdr_fields (ihdr_vals (ic_header c))) as (x & EX & LX); [reflexivity|now apply ihdr_fields_ok|].
    assert (x = ib) by congruence. now subst. }
  apply has_app in HH as [HA HH]. apply has_app in HH as [HB HC]. rewrite L1 in *. rewrite L2 in *.
  unfold rd_page. eapply bind_ok; [eapply phdr_wr; eassumption|]. rewrite HI. eapply bind_ok; [|reflexivity].
  unfold rd_icontent. eapply bind_ok. { apply (fields_wr b no_rs no_q); [reflexivity|now apply no_rs_wr|apply ihdr_fields_ok; exact H2|exact E2|exact HB]. }
  eapply bind_ok. { unfold lift. rewrite ihdr_of_vals. reflexivity. }
  replace (N.to_nat (ih_num (ic_header c))) with (length (ic_entries c)) by (unfold len in HL; lia). eapply bind_ok. { apply rd_u32s_has; [exact HE|]. rewrite L2. exact HC. }
  unfold ret. rewrite L2. destruct c as [ch ce]. cbn [ic_header ic_entries]. do 2 f_equal. unfold len. lia.
Qed.
Lemma index_page_write_read b db ps h c buf pos buf' p' :
  80 <= ps -> phdr_ok db h -> is_index_page (ph_flags h) = true -> ihdr_ok (ic_header c) -> Forall is_u32 (ic_entries c) ->
  len (ic_entries c) = ih_num (ic_header c) -> page_write b ps (mk_page h (PIndex c)) (buf, pos) = Ok (buf', p') ->
  rd_page b (rd_dstr b) ps db buf' pos = Ok (mk_page h (PIndex c), pos + 60 + 4 * len (ic_entries c)).
Proof.
  intros HP H1 HI H2 HE HL HW. destruct (ipage_write_eq db b ps h c buf pos HP H1 H2) as (hb & ib & E1 & L1 & E2 & L2 & E). rewrite E in HW. clear E.
  destruct ((ps - 80) / 4 <? ih_num (ic_header c)) eqn:EN; [easy|]. cbv zeta in HW. injection HW as <- _.
  apply (ipage_wr b (rd_dstr b) db ps h c hb ib); try easy.
  assert (has (write_at buf pos (hb ++ ib ++ flat_map (le_enc 4) (ic_entries c) ++ index_tail ps (ih_num (ic_header c)))) pos
    (hb ++ ib ++ flat_map (le_enc 4) (ic_entries c) ++ index_tail ps (ih_num (ic_header c)))) as HH.
  { apply has_write_same. destruct hb; [discriminate L1|easy]. }
  rewrite !app_assoc in HH. apply has_app in HH as [HH _]. now rewrite <- !app_assoc in HH.
Qed.
Lemma index_page_frame db b ps h c buf pos buf' p' :
  80 <= ps -> phdr_ok db h -> ihdr_ok (ic_header c) -> page_write b ps (mk_page h (PIndex c)) (buf, pos) = Ok (buf', p') ->
  (forall i, i < len buf -> i < pos \/ p' <= i -> getN buf' i = getN buf i) /\ (p' <= len buf -> len buf' = len buf).
Proof.
  intros HP H1 H2 HW. destruct (ipage_write_eq db b ps h c buf pos HP H1 H2) as (hb & ib & E1 & L1 & E2 & L2 & E). rewrite E in HW. clear E.
  destruct ((ps - 80) / 4 <? ih_num (ic_header c)) eqn:EN; [easy|]. cbv zeta in HW. injection HW as <- <-.
  match goal with |- context[write_at buf pos ?bs] => set (x := bs) end. split.
  - intros i Hi HR. now apply write_at_extent.
  - intro HL. assert (x <> []) by (unfold x; destruct hb; [discriminate L1|easy]). rewrite len_write_at by easy. lia.
Qed.

(** C23 for index pages. *)
Lemma ipage_rw b rs db ps h c buf pos p :
  bytes_ok buf -> pos <= len buf -> rd_page b rs ps db buf pos = Ok (mk_page h (PIndex c), p) ->
  phdr_ok db h /\ is_index_page (ph_flags h) = true /\ ihdr_ok (ic_header c) /\ Forall is_u32 (ic_entries c) /\
  len (ic_entries c) = ih_num (ic_header c) /\ p = pos + 60 + 4 * len (ic_entries c) /\
  exists hb ib, phdr_enc b h = Ok hb /\ enc_fields b ihdr_fields (ihdr_vals (ic_header c)) = Ok ib /\
    has buf pos (hb ++ ib ++ flat_map (le_enc 4) (ic_entries c)).
Proof.
  intros HB HL H. unfold rd_page in H. apply bind_inv in H as (h0 & p1 & R & H).
  apply (phdr_rw db b) in R as (H3 & -> & hb & E1 & HH & L1); try easy. pose proof (has_len _ _ _ HH) as HHL.
  destruct (is_index_page (ph_flags h0)) eqn:EI; apply bind_inv in H as (c0 & p2 & R & H); apply ret_inv in H as [EP EP2]; [|discriminate].
  injection EP as -> ->. subst p2. unfold rd_icontent in R. apply bind_inv in R as (vs & q & R0 & R).
  apply (fields_rw b no_rs no_q) in R0 as (HF & ib & E2 & HD & ->); try easy; [|lia]. pose proof (has_len _ _ _ HD) as HDL.
  assert (len ib = 28) as L2 by (now apply (fields_enc_len b no_q ihdr_fields vs)).
  apply bind_inv in R as (ih & q & R0 & R). unfold lift in R0. destruct (ihdr_of vs) as [ih0| |] eqn:EH; [|easy|easy].
  apply ihdr_of_inv in EH as [HO ->]; [|easy]. assert (ih0 = ih /\ q = pos + 32 + len ib) as [-> ->] by (split; congruence). clear R0.
  apply bind_inv in R as (es & q & R0 & R). apply ret_inv in R as [<- <-]. cbn [ic_header ic_entries].
  apply (rd_count_inv (le_enc 4) (rd_le 4) is_u32) in R0 as (HL2 & HF2 & HE & ->).
  2: { intros v q1 q2 RR. apply rd_le_inv in RR as (A & B & ->); try easy. }
  repeat (split; [assumption|]). assert (len es = ih_num ih) as HN by (unfold len; lia). split; [easy|].
  split; [rewrite len_flat4; unfold len at 2; lia|]. exists hb, ib. split; [easy|]. split; [easy|].
  apply has_app. split; [easy|]. rewrite L1. apply has_app. split; [easy|]. destruct HE as [HE|HE]; [|easy].
  destruct es as [|x es]; [|cbn in HL2; lia]. apply has_nil. lia.
Qed.
Lemma index_page_read_write_back b rs db ps buf pos h c p :
  bytes_ok buf -> 80 <= ps -> pos <= len buf -> rd_page b rs ps db buf pos = Ok (mk_page h (PIndex c), p) ->
  ih_num (ic_header c) <= (ps - 80) / 4 ->
  exists buf' p', page_write b ps (mk_page h (PIndex c)) (buf, pos) = Ok (buf', p') /\
    (buf' = buf <-> has buf p (index_tail ps (ih_num (ic_header c)))) /\
    (forall i, i < len buf -> i < p \/ p' <= i -> getN buf' i = getN buf i).
Proof.
  intros HB HP HL H HN. apply (ipage_rw b) in H as (H1 & H2 & H3 & H4 & H5 & -> & hb & ib & E1 & E2 & HH); try easy.
  destruct (ipage_write_eq db b ps h c buf pos HP H1 H3) as (hb' & ib' & E1' & L1 & E2' & L2 & E).
  assert (hb' = hb) by congruence. assert (ib' = ib) by congruence. subst.
  eexists _, _. rewrite E. replace ((ps - 80) / 4 <? ih_num (ic_header c)) with false by lia. cbv zeta. split; [reflexivity|].
  set (A := hb ++ ib ++ flat_map (le_enc 4) (ic_entries c)) in *. set (T := index_tail ps (ih_num (ic_header c))).
  replace (hb ++ ib ++ flat_map (le_enc 4) (ic_entries c) ++ T) with (A ++ T) by (unfold A; now rewrite <- !app_assoc).
  assert (len A = 60 + 4 * len (ic_entries c)) as LA. { unfold A. rewrite !len_app, len_flat4, L1, L2. unfold len. lia. }
  assert (T <> []) as HT. { intro EQ. pose proof (len_index_tail ps (ih_num (ic_header c))) as LT. fold T in LT. rewrite EQ, len_nil in LT. lia. }
  rewrite write_at_app, (write_at_id buf pos A HH), len_app. replace (pos + 60 + 4 * len (ic_entries c)) with (pos + len A) by lia. split; [split|].
  - intros EQ. rewrite <- EQ. now apply has_write_same.
  - intro HX. now apply write_at_id.
  - intros i Hi HR. apply write_at_extent; [lia|easy].
Qed.
