(** * Rows that were read have the fields of their type *)
From Coq Require Import NArith ZArith List Bool Lia.
From Coq Require Import ZifyBool ZifyNat ZifyN.
From Verif Require Import Base BaseFacts Str Schema Oa Rows Page PageRw AllocFacts Db DbFacts.
Import ListNotations.
Open Scope N_scope.

Definition vshape (f : field) (v : fval) : Prop :=
  match f, v with
  | FInt _ _, VInt _ | FMagic _ _ _, VUnit | FEnum _ _ _, VNamed _ | FEnumF _ _ _, VNamed _ | FEnumF _ _ _, VOther _
  | FBytes _, VBytes _ | FStr, VStr _ => True
  | _, _ => False
  end.
Definition row_shaped (r : row) : Prop :=
  match r with
  | RUnknown => True
  | RRow k vs oc => Forall2 vshape (row_fields k) vs /\
      match row_oarr k, oc with None, None => True | Some (_, n), Some c => List.length (oa_items c) = n | _, _ => False end
  end.
Definition page_shaped (p : page) : Prop := match pg_content p with PData c => Forall (fun x => row_shaped (snd x)) (dc_rows c) | PIndex _ => True end.
Definition db_shaped (d : database) : Prop := forall k p, getN (db_pages d) k = Some (Some p) -> page_shaped p.

Lemma rd_fields_shape rs fs : forall buf pos vs p, rd_fields rs fs buf pos = Ok (vs, p) -> Forall2 vshape fs vs.
Proof.
  induction fs as [|f fs IH]; intros buf pos vs p H; cbn [rd_fields] in H; [apply ret_inv in H as [<- _]; constructor|].
  apply bind_inv in H as (v & p1 & HV & H). apply bind_inv in H as (ws & p2 & HW & H). apply ret_inv in H as [<- _]. constructor; [|now apply IH in HW].
  destruct f; cbn [rd_field] in HV; repeat (apply bind_inv in HV as (? & ? & ? & HV)); apply ret_inv in HV as [<- _]; cbn [vshape]; try easy.
  now destruct (mem _ _).
Qed.
Lemma rd_items_length rs : forall os base cur buf ds, rd_items rs base cur os buf = Ok ds -> List.length ds = List.length os.
Proof.
  induction os as [|o os IH]; intros base cur buf ds H; cbn [rd_items] in H; [injection H as <-; easy|].
  destruct (rs buf (cur + o)) as [[d p]|e|]; [|now destruct (rd_items _ _ _ _ _)|easy].
  destruct (rd_items rs base base os buf) as [ds'|e|] eqn:E; try easy. injection H as <-. cbn [List.length]. now rewrite (IH _ _ _ _ E).
Qed.
Lemma rd_count_length {A} (dec : parser A) : forall n buf pos l p, rd_count n dec buf pos = Ok (l, p) -> List.length l = n.
Proof.
  induction n as [|n IH]; intros buf pos l p H; cbn [rd_count] in H; [apply ret_inv in H as [<- _]; easy|].
  apply bind_inv in H as (x & p1 & _ & H). apply bind_inv in H as (xs & p2 & HX & H). apply ret_inv in H as [<- _]. cbn [List.length]. now rewrite (IH _ _ _ _ HX).
Qed.
Lemma rd_row_shaped rs pt buf pos r p : rd_row rs pt buf pos = Ok (r, p) -> row_shaped r.
Proof.
  destruct pt as [k|c]; cbn [rd_row]; intro H; [|apply ret_inv in H as [<- _]; exact I].
  apply bind_inv in H as (vs & p1 & HV & H). apply rd_fields_shape in HV. destruct (row_oarr k) as [[off n]|] eqn:EO.
  - apply bind_inv in H as (c & p2 & HC & H). apply ret_inv in H as [<- _]. cbn [row_shaped]. rewrite EO. split; [easy|].
    unfold rd_oarr in HC. destruct (rd_offs (row_osize vs) n buf p1) as [[o q]| |] eqn:RO; try easy.
    destruct (calculate_base p1 off) as [base| |]; try easy. cbn [res_bind] in HC.
    destruct (rd_items rs base base (of_list o) buf) as [items| |] eqn:RI; try easy. cbn [res_bind] in HC.
    assert (c = mk_oarr (Some o) items) as -> by congruence. cbn [oa_items]. rewrite (rd_items_length _ _ _ _ _ _ RI).
    unfold rd_offs in RO. apply bind_inv in RO as (u & q1 & _ & RO). apply bind_inv in RO as (l & q2 & RL & RO). apply ret_inv in RO as [<- _].
    cbn [of_list]. now apply rd_count_length in RL.
  - apply ret_inv in H as [<- _]. cbn [row_shaped]. now rewrite EO.
Qed.
Lemma rd_page_shaped b rs ps db buf pos p q : rd_page b rs ps db buf pos = Ok (p, q) -> page_shaped p.
Proof.
  unfold rd_page. intro H. apply bind_inv in H as (h & p1 & _ & H). destruct (is_index_page (ph_flags h)).
  - apply bind_inv in H as (c & p2 & _ & H). apply ret_inv in H as [<- _]. exact I.
  - apply bind_inv in H as (c & p2 & R & H). apply ret_inv in H as [<- _]. unfold page_shaped. cbn [pg_content pg_header]. unfold rd_dcontent in R.
    repeat (apply bind_inv in R as (? & ? & ? & R)). apply ret_inv in R as [<- _]. cbn [dc_rows].
    match goal with G : match rd_rows_at _ _ ?base ?os _ _ with _ => _ end = _ |- _ => destruct (rd_rows_at rs (ph_type h) base os [] buf) as [m| |] eqn:E; try easy; injection G as <- <- end.
    apply rd_rows_at_inv in E as (S & G & _). rewrite Forall_forall. intros [k r] HI. cbn [snd].
    apply map_get_in in HI; [|apply S; constructor]. apply G in HI as [(_ & y & R)|[_ R]]; [|easy]. now apply rd_row_shaped in R.
Qed.
Lemma read_page_shaped b d i p : read_page b d i = DOk p -> page_shaped p.
Proof.
  unfold read_page. destruct (page_offset b i (dh_page_size (db_header d))) as [off| |]; [|easy|easy]. cbn [res_bind].
  destruct (rd_page b (rd_dstr b) (dh_page_size (db_header d)) (db_kind d) (db_io d) off) as [[q x]| |] eqn:E; try easy. intros [= <-]. now apply rd_page_shaped in E.
Qed.
Lemma open_shaped io k d : db_open io k = DOk d -> db_shaped d.
Proof.
  unfold db_open. destruct (rd_dbhdr k io 0) as [[h q]| |]; try easy. intros [= <-] j p H. cbn [db_pages] in H.
  exfalso. assert (In (Some p) (repeat None (N.to_nat (dh_next h - 1)))) as HI by (apply in_getN; now exists j). now apply repeat_spec in HI.
Qed.
Lemma load_entry_shaped b d k i d1 r : db_shaped d -> load_entry b d k i = (d1, r) -> db_shaped d1 /\ forall p, r = DOk p -> page_shaped p.
Proof.
  intros HD H. unfold load_entry in H. destruct (getN (db_pages d) k) as [[p|]|] eqn:E.
  - assert (d1 = d /\ r = DOk p) as [-> ->] by (split; congruence). split; [easy|]. intros q [= <-]. now apply (HD k).
  - destruct (read_page b d i) as [p|e|] eqn:R.
    + apply read_page_shaped in R. assert (d1 = with_pages d (set_nth (N.to_nat k) (Some p) (db_pages d)) /\ r = DOk p) as [-> ->] by (split; congruence).
      split; [|now intros q [= <-]]. intros j q. unfold with_pages. cbn [db_pages]. rewrite getN_set_nth by now apply getN_Some_lt in E.
      destruct (j =? k); [now intros [= <-]|apply HD].
    + assert (d1 = d /\ r = DErr e) as [-> ->] by (split; congruence). easy.
    + assert (d1 = d /\ r = DPanic) as [-> ->] by (split; congruence). easy.
  - assert (d1 = d /\ r = DPanic) as [-> ->] by (split; congruence). easy.
Qed.
Lemma iter_next_shaped b d it d1 it1 r : db_shaped d -> iter_next b d it = (d1, it1, r) -> db_shaped d1 /\ forall i p, r = DOk (Some (i, p)) -> page_shaped p.
Proof.
  intros HD H. apply iter_next_cases in H as [(_ & -> & _ & ->)|[(i & _ & _ & -> & _ & ->)|[(i & _ & _ & _ & -> & _ & ->)|(i & r1 & _ & _ & _ & HL & _ & _ & _ & _ & HR)]]]; try easy.
  apply load_entry_shaped in HL as [HD1 HP]; [|easy]. split; [easy|]. intros j p ->. destruct r1 as [q|e|]; [|easy|easy]. destruct HR as [[= <- <-] _]. now apply HP.
Qed.
Lemma rows_n_shaped b k : forall n d it, db_shaped d -> db_shaped (fst (rows_n b k n d it)) /\
  forall l, snd (rows_n b k n d it) = Some (DOk l) -> Forall (fun r => row_shaped r /\ is_variant k r = true) l.
Proof.
  induction n as [|n IH]; intros d it HD; cbn [rows_n]; [easy|].
  destruct (iter_next b d it) as [[d1 it1] r] eqn:E. apply iter_next_shaped in E as [HD1 HP]; [|easy].
  destruct r as [[[i p]|]|e|]; cbn [fst snd]; try easy.
  2:{ split; [easy|]. intros l [= <-]. constructor. }
  specialize (HP i p eq_refl). unfold rows_as. destruct (forallb (is_variant k) (rows_of_page p)) eqn:FV; [|easy].
  destruct (IH d1 it1 HD1) as [HF HS]. destruct (rows_n b k n d1 it1) as [d2 [[l2|e|]|]]; cbn [fst snd] in *; try easy.
  split; [easy|]. intros l [= <-]. rewrite Forall_app. split; [|now apply HS]. rewrite forallb_forall in FV. apply Forall_forall. intros x HX.
  split; [|now apply FV]. unfold rows_of_page, page_shaped in *. destruct (pg_content p) as [c|c]; [|easy].
  apply in_map_iff in HX as (y & <- & HY). rewrite Forall_forall in HP. now apply HP.
Qed.
Lemma iter_rows_shaped b k d : db_shaped d -> db_shaped (fst (iter_rows b k d)) /\
  forall l, snd (iter_rows b k d) = Some (DOk l) -> Forall (fun r => row_shaped r /\ is_variant k r = true) l.
Proof. intro HD. unfold iter_rows. destruct (iter_pages d (PT k)) as [it|e|]; cbn [fst snd]; try easy. now apply rows_n_shaped. Qed.
(** The fuel of [iter_rows] is enough. *)
Lemma rows_fuel b k : forall n d it, it_inv d it -> (len (db_pages d) + 1 - it_off it < N.of_nat n \/ it_next it = None /\ n <> O)%N ->
  it_off it <= len (db_pages d) + 1 -> snd (rows_n b k n d it) <> None.
Proof.
  induction n as [|n IH]; intros d it HI HF HO; [lia|]. cbn [rows_n]. destruct (iter_next b d it) as [[d1 it1] [[[j p]|]|e|]] eqn:E; try easy.
  pose proof (iter_next_inv b d it d1 it1 _ HI E) as [HI1 HL1].
  apply iter_next_cases in E as [(_ & _ & _ & H)|[(i & _ & _ & _ & _ & H)|[(i & _ & _ & _ & _ & _ & H)|(i & r1 & E1 & E2 & E3 & EL & B1 & B2 & E4 & _ & H)]]]; try easy.
  destruct (rows_as k (rows_of_page p)) as [l0|e|]; try easy.
  specialize (IH d1 it1 HI1). destruct (rows_n b k n d1 it1) as [d2 r2]. cbn [snd] in *. destruct r2 as [[l|e|]|]; try easy. exfalso. apply IH; [|destruct HI as [HI|HI]; lia|reflexivity].
  destruct HF as [HF|[HF _]]; [|congruence]. left. rewrite HL1, E4. destruct HI as [HI|HI]; lia.
Qed.
Lemma iter_rows_total b k d : snd (iter_rows b k d) <> None.
Proof.
  unfold iter_rows, iter_pages. destruct (find_table (PT k) (db_header d)) as [[i t]|]; [|easy].
  apply rows_fuel; [apply iter_of_inv|left|]; cbn [iter_of it_off]; [unfold len; lia|lia].
Qed.
