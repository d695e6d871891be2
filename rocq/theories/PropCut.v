(** * Property C79: saving that is interrupted *)
From Coq Require Import NArith ZArith List Bool Lia.
From Coq Require Import ZifyBool ZifyNat ZifyN.
From Verif Require Import Base BaseFacts Segs Str StrFacts StrGood Schema SchemaFacts Oa OaFacts OaSpec Rows RowFacts RowSpec Page BitFacts PageFacts PageRw PageSpec Alloc AllocFacts AllocSpec
  Db DbFacts DbFlush DbFresh Reread Progress Insert Session Revise Cut PropAlloc PropSession PropRevise.
Import ListNotations.
Open Scope N_scope.

(** A program opens the file, inserts rows, assigns fields, saves; the last save is interrupted while page [j] is written.  The file can be opened again.  The pages in front of [j]
    have the new rows, those behind [j] the rows of the save before; only the rows of page [j] may be lost. *)
Theorem c79_interrupted : forall b k io d G P A l d1 j io',
  bytes_ok io -> len io < 2 ^ 64 - 1 -> db_open io k = DOk d -> 28 + 16 * len (dh_tables (db_header d)) <= dh_page_size (db_header d) ->
  (forall i s, A i = Some s -> exists p, good_page b d (G i) i p /\ like s p) -> acts_ok b (db_header d) G P A l ->
  acts b d l d1 -> interrupted b d1 j io' ->
  let A' := spliced j (acts_work P A l) (saved P A l) in
  exists d2, db_open io' k = DOk d2 /\ db_header d2 = db_header d /\ stores b d2 G A' /\
    forall r i t q, find_table (PT r) (db_header d) = Some (i, t) -> path A' (tb_last t) (tb_first t) q ->
      forallb (is_variant r) (flat_map (shelf_rows A') q) = true ->
      exists rows, snd (iter_rows b r d2) = Some (DOk rows) /\ Forall2 same_values (flat_map (shelf_rows A') q) rows.
Proof.
  intros b k io d G P A l d1 j io' HB HL HO HP HA HW HS HI A'. pose proof (open_stores b io k d G A HB HL HO HP HA) as HST. destruct (open_pages _ _ _ HO) as (E1 & E2 & _).
  destruct (acts_stores b d l d1 HS G P A HST HW) as (D1 & D2 & D3). assert (on_disk b d G A) as HD by (exists d; now rewrite E1, E2).
  pose proof (acts_on_disk b d l d1 HS G P A A HST HW HD) as HD1. destruct (interrupted_stores b d1 G _ _ j io' D1 HD1 HI) as (d2 & O1 & O2 & O3). exists d2. rewrite D3, E2 in O1.
  split; [exact O1|]. split; [congruence|]. split; [exact O3|]. intros r i t q HT HPA HV. apply (stores_rows b d2 G A' r i t q O3); [|exact HPA|exact HV]. rewrite <- HT. f_equal. congruence.
Qed.
Print Assumptions c79_interrupted.
(** While the header page is written, all rows are those of the save before. *)
Theorem c79_header : forall b k io d G P A l d1 io',
  bytes_ok io -> len io < 2 ^ 64 - 1 -> db_open io k = DOk d -> 28 + 16 * len (dh_tables (db_header d)) <= dh_page_size (db_header d) ->
  (forall i s, A i = Some s -> exists p, good_page b d (G i) i p /\ like s p) -> acts_ok b (db_header d) G P A l ->
  acts b d l d1 -> interrupted_header d1 io' ->
  let A' := saved P A l in
  exists d2, db_open io' k = DOk d2 /\ db_header d2 = db_header d /\ stores b d2 G A' /\
    forall r i t q, find_table (PT r) (db_header d) = Some (i, t) -> path A' (tb_last t) (tb_first t) q ->
      forallb (is_variant r) (flat_map (shelf_rows A') q) = true ->
      exists rows, snd (iter_rows b r d2) = Some (DOk rows) /\ Forall2 same_values (flat_map (shelf_rows A') q) rows.
Proof.
  intros b k io d G P A l d1 io' HB HL HO HP HA HW HS HI A'. pose proof (open_stores b io k d G A HB HL HO HP HA) as HST. destruct (open_pages _ _ _ HO) as (E1 & E2 & _).
  destruct (acts_stores b d l d1 HS G P A HST HW) as (D1 & D2 & D3). assert (on_disk b d G A) as HD by (exists d; now rewrite E1, E2).
  pose proof (acts_on_disk b d l d1 HS G P A A HST HW HD) as HD1. destruct (header_stores b d1 G _ io' HD1 HI) as (d2 & O1 & O2 & O3). exists d2. rewrite D3, E2 in O1.
  split; [exact O1|]. split; [congruence|]. split; [exact O3|]. intros r i t q HT HPA HV. apply (stores_rows b d2 G A' r i t q O3); [|exact HPA|exact HV]. rewrite <- HT. f_equal. congruence.
Qed.
Print Assumptions c79_header.
(** So a table in front of page [j] is complete and new, a table behind it complete and old. *)
Lemma path_eq A A' last : forall first q, path A last first q -> (forall i, In i q -> A' i = A i) -> path A' last first q.
Proof.
  intros first q H. induction H as [s E|n s l NE E HI HP IH]; intro HE; [apply (path_last _ _ s); now rewrite HE by now left|]. apply (path_step _ _ n s); try easy; [now rewrite HE by now left|]. apply IH. intros i Hi. apply HE. now right.
Qed.
Lemma rows_eq A A' : forall q, (forall i, In i q -> A' i = A i) -> flat_map (shelf_rows A') q = flat_map (shelf_rows A) q.
Proof. induction q as [|i q IH]; intro H; [easy|]. cbn [flat_map]. rewrite IH by (intros x Hx; apply H; now right). unfold shelf_rows at 1 3. now rewrite H by now left. Qed.
Theorem c79_tables : forall j new old last first q,
  (path new last first q -> Forall (fun i => i < j) q -> path (spliced j new old) last first q /\ flat_map (shelf_rows (spliced j new old)) q = flat_map (shelf_rows new) q) /\
  (path old last first q -> Forall (fun i => j < i) q -> path (spliced j new old) last first q /\ flat_map (shelf_rows (spliced j new old)) q = flat_map (shelf_rows old) q).
Proof.
  intros j new old last first q. split; intros HP HF; rewrite Forall_forall in HF.
  - assert (forall i, In i q -> spliced j new old i = new i) as HE by (intros i Hi; apply HF in Hi; unfold spliced; now replace (i <? j) with true by lia). split; [now apply (path_eq new)|now apply rows_eq].
  - assert (forall i, In i q -> spliced j new old i = old i) as HE by (intros i Hi; apply HF in Hi; unfold spliced; replace (i <? j) with false by lia; now replace (i =? j) with false by lia). split; [now apply (path_eq old)|now apply rows_eq].
Qed.
Print Assumptions c79_tables.
(** These are the states that saving goes through: first the header page, then the pages in memory, piece by piece. *)
Theorem c79_states : forall b d d', savable b d -> flush b d = DOk d' ->
  (forall n, interrupted_header d (write_at (db_io d) 0 (firstn n (header_page (db_header d))))) /\
  (exists d1, flush b (unload_from d 1) = DOk d1 /\ db_io d1 = write_at (db_io d) 0 (header_page (db_header d))) /\
  (forall j, 1 <= j -> getN (db_pages d) (j - 1) = Some None -> unload_from d (j + 1) = unload_from d j) /\
  (forall j p, 1 <= j -> getN (db_pages d) (j - 1) = Some (Some p) ->
    let ps := dh_page_size (db_header d) in
    exists d1 d2 l, flush b (unload_from d j) = DOk d1 /\ flush b (unload_from d (j + 1)) = DOk d2 /\ page_pieces b ps (j * ps) p l /\ db_io d2 = write_segs (db_io d1) l /\
      forall l1 s l2 n, l = l1 ++ s :: l2 -> interrupted b d j (write_segs (db_io d1) (l1 ++ [(fst s, firstn n (snd s))]))) /\
  unload_from d (len (db_pages d) + 1) = d.
Proof.
  intros b d d' HS HF. pose proof HS as (S0 & S1 & S2 & S3 & S4). split; [|split; [now apply flush_first|split; [intros; now apply unload_skip|split; [intros j p; now apply (flush_interrupted b d d')|apply flush_last; lia]]]].
  intro n. assert (bytes_ok (firstn n (header_page (db_header d)))) as HB.
  { destruct (flush_first b d S2) as (d1 & F1 & F2). assert (bytes_ok (header_page (db_header d))) as X.
    { unfold header_page. apply bytes_ok_app. split; [|apply bytes_ok_zeros]. unfold dbhdr_enc. repeat (apply bytes_ok_app; split; [apply le_enc_ok|]). clear. induction (dh_tables (db_header d)) as [|t ts IH]; [constructor|]. cbn [flat_map]. apply bytes_ok_app. split; [|easy]. unfold table_enc.
      repeat (apply bytes_ok_app; split; [apply le_enc_ok|]). apply le_enc_ok. }
    unfold bytes_ok in *. rewrite Forall_forall in *. intros x Hx. apply X. rewrite <- (firstn_skipn n). apply in_or_app. now left. }
  split; [now apply bytes_ok_write_at|]. intros x Hx. destruct (N.lt_ge_cases x (len (firstn n (header_page (db_header d))))) as [HC|HC].
  - right. split. { rewrite <- len_header_page by easy. unfold len in *. rewrite firstn_length in HC. lia. }
    assert (has (write_at (db_io d) 0 (firstn n (header_page (db_header d)))) 0 (firstn n (header_page (db_header d)))) as HH by (apply has_write_same; intro E; rewrite E, len_nil in HC; lia).
    apply has_get in HH as [_ HH]. change x with (0 + x) at 1. rewrite HH by easy. clear - HC. revert x HC. generalize (header_page (db_header d)). induction n as [|n IH]; intros l x HC; [cbn in HC; lia|].
    destruct l as [|y l]; [easy|]. cbn [firstn] in *. rewrite !getN_cons. rewrite len_cons in HC. destruct (x =? 0) eqn:E; [easy|]. apply IH. lia.
  - left. pose proof (write_segs_frame (db_io d) [(0, firstn n (header_page (db_header d)))] x Hx) as X. cbn [write_segs] in X. apply X. intro HE. apply Exists_cons in HE as [HE|HE]; [|now apply Exists_nil in HE]. unfold seg_end in HE. cbn [fst snd] in HE. lia.
Qed.
Print Assumptions c79_states.

(** ** Example: three pages with two keys each; a program numbers the keys, and is interrupted while it saves the second page, whose first half is then unreadable. *)
Definition c79_hdr : dbhdr := mk_dbhdr 198 1 4 0 7 [mk_table (PT KKey) 9 1 1].
Definition c79_io : list N := Eval vm_compute in match flush Debug (mk_db (repeat 0 792) DbPlain c79_hdr [Some c75_page; Some c75_page; Some c75_page]) with DOk d => db_io d | _ => [] end.
Definition c79_open : database := mk_db c79_io DbPlain c79_hdr [None; None; None].
Definition c79_shelves : shelves := fun i => if (1 <=? i) && (i <=? 3) then Some (mk_shelf (PT KKey) 6 112 3 (map snd c18_rows)) else None.
Definition c79_acts : list act := [AAssign 1 c78_number_keys; AAssign 2 c78_number_keys; AAssign 3 c78_number_keys].
Definition c79_done (b : build) : database :=
  let step d j := let '(d1, r) := load_page b d j in match r with DOk p => set_page d1 j (assign_page c78_number_keys 0 p) | _ => d1 end in step (step (step c79_open 1) 2) 3.
Definition c79_before (j : N) : list N := match flush Debug (unload_from (c79_done Debug) j) with DOk d => db_io d | _ => [] end.
Definition c79_cut : list N := write_segs (c79_before 2) [(396, repeat 255 99)].
Lemma c79_bytes l : forallb (fun x => x <? 256) l = true -> bytes_ok l.
Proof. intro E. apply Forall_forall. intros x Hx. rewrite forallb_forall in E. specialize (E x Hx). cbv beta in E. lia. Qed.
Lemma c79_flush j : c79_before j <> [] -> exists d, flush Debug (unload_from (c79_done Debug) j) = DOk d /\ db_io d = c79_before j.
Proof. unfold c79_before. intro H. destruct (flush Debug (unload_from (c79_done Debug) j)) as [d| |]; [now exists d|easy|easy]. Qed.
Example c79_example_hyp : bytes_ok c79_io /\ db_open c79_io DbPlain = DOk c79_open /\ (forall i s, c79_shelves i = Some s -> exists p, good_page Debug c79_open GGrow i p /\ like s p) /\
  acts_ok Debug c79_hdr (fun _ => GGrow) c78_tables c79_shelves c79_acts /\ acts Debug c79_open c79_acts (c79_done Debug) /\ interrupted Debug (c79_done Debug) 2 c79_cut /\
  acts_work c78_tables c79_shelves c79_acts 1 = Some (mk_shelf (PT KKey) 6 112 3 (revised c78_number_keys 0 (map snd c18_rows))) /\ saved c78_tables c79_shelves c79_acts 3 = Some (mk_shelf (PT KKey) 6 112 3 (map snd c18_rows)).
Proof.
  assert (can_grow Debug DbPlain 198 c75_page) as HG by (exists c18_header, c18_content; split; [easy|exact c19_example_ok]).
  assert (forall r, In r (map snd c18_rows) -> row_writes Debug r) as HW by (intros r [<-|[<-|[]]]; eexists; vm_compute; reflexivity).
  split; [apply c79_bytes; vm_compute; reflexivity|]. split; [vm_compute; reflexivity|]. split; [|split; [|split; [|split; [|split; vm_compute; reflexivity]]]].
  - intros i s H. unfold c79_shelves in H. destruct ((1 <=? i) && (i <=? 3)) eqn:E; [|easy]. injection H as <-. exists c75_page. split.
    + unfold good_page. cbn [c79_open db_header db_kind dh_page_size dh_next c79_hdr db_io]. split; [lia|]. split; [lia|]. split; [now apply grow_consistent|]. split.
      { unfold page_writes. cbn [c75_page pg_content c18_content dc_rows]. apply Forall_forall. intros x Hx. apply HW. now apply in_map. }
      split; [easy|]. assert (i = 1 \/ i = 2 \/ i = 3) as [->|[->| ->]] by lia; eexists; vm_compute; reflexivity.
    + split; [reflexivity|]. split; [reflexivity|]. split; [reflexivity|]. split; [reflexivity|]. cbn. repeat constructor.
  - assert (forall A, A = Some (mk_shelf (PT KKey) 6 112 3 (map snd c18_rows)) -> exists s, A = Some s /\ GGrow <> GAny /\ modest_rows Debug c78_number_keys 0 (sh_rows s)) as HM.
    { intros A ->. eexists. split; [reflexivity|]. split; [discriminate|]. change (sh_rows _) with [RRow KKey [VInt 1; VInt 1; VStr (DSShort [65; 109])] None; RRow KKey [VInt 2; VInt 2; VStr (DSShort [66])] None].
      cbn [modest_rows]. split; [|split; [|exact I]]; unfold c78_number_keys; [apply (c78_id 1 1 65)|apply (c78_id 2 2 66)]; try reflexivity; [now right|now left]. }
    cbn [c79_acts acts_ok act_ok]. split; [|split; [|split; [|exact I]]]; apply HM; vm_compute; reflexivity.
  - unfold c79_acts. eapply acts_cons; [eapply does_assign; vm_compute; reflexivity|]. eapply acts_cons; [eapply does_assign; vm_compute; reflexivity|]. eapply acts_cons; [eapply does_assign; vm_compute; reflexivity|].
    match goal with |- acts _ ?x _ _ => replace (c79_done Debug) with x by (vm_compute; reflexivity) end. apply acts_nil.
  - split; [lia|]. split; [apply c79_bytes; vm_compute; reflexivity|]. destruct (c79_flush 2) as (d & F1 & F2); [vm_compute; discriminate|]. exists d. split; [exact F1|]. rewrite F2. change (dh_page_size (db_header (c79_done Debug))) with 198.
    intros x X1 X2. unfold c79_cut. apply write_segs_frame; [exact X1|]. intro HC. apply Exists_cons in HC as [HC|HC]; [|now apply Exists_nil in HC]. unfold seg_end in HC. change (len (snd (396, repeat 255 99))) with 99 in HC. cbn [fst] in HC. lia.
Qed.
Example c79_example : exists d2, db_open c79_cut DbPlain = DOk d2 /\ snd (iter_rows Debug KKey d2) = Some (DOk (revised c78_number_keys 0 (map snd c18_rows))) /\
  (forall p, snd (load_page Debug d2 2) <> DOk p) /\ exists p, snd (load_page Debug d2 3) = DOk p /\ rows_of_page p = map snd c18_rows.
Proof.
  eexists. split; [vm_compute; reflexivity|]. split; [vm_compute; reflexivity|]. split.
  - intro p. vm_compute. discriminate.
  - eexists. split; [vm_compute; reflexivity|]. reflexivity.
Qed.
(** Saving is not atomic, not even for one page: a save that ends within page 1 can leave the first key with its new number and the second one with its old number. *)
Definition c79_mixed : list N := write_segs (c79_before 1) [(238, [100; 0; 0; 0])].
Theorem c79_atomic_refuted : exists io d l d1 io' d2 rows, db_open io DbPlain = DOk d /\ acts Debug d l d1 /\ interrupted Debug d1 1 io' /\ db_open io' DbPlain = DOk d2 /\
  snd (iter_rows Debug KKey d2) = Some (DOk rows) /\
  (exists old, snd (iter_rows Debug KKey d) = Some (DOk old) /\ ~ Forall2 same_values old rows) /\ (exists new, snd (iter_rows Debug KKey d1) = Some (DOk new) /\ ~ Forall2 same_values new rows).
Proof.
  exists c79_io, c79_open, c79_acts, (c79_done Debug), c79_mixed. eexists _, _. split; [apply c79_example_hyp|]. split; [apply c79_example_hyp|]. split; [|split; [vm_compute; reflexivity|split; [vm_compute; reflexivity|split]]].
  - split; [lia|]. split; [apply c79_bytes; vm_compute; reflexivity|]. destruct (c79_flush 1) as (d & F1 & F2); [vm_compute; discriminate|]. exists d. split; [exact F1|]. rewrite F2. change (dh_page_size (db_header (c79_done Debug))) with 198.
    intros x X1 X2. unfold c79_mixed. apply write_segs_frame; [exact X1|]. intro HC. apply Exists_cons in HC as [HC|HC]; [|now apply Exists_nil in HC]. unfold seg_end in HC. change (len (snd (238, [100; 0; 0; 0]))) with 4 in HC. cbn [fst] in HC. lia.
  - eexists. split; [vm_compute; reflexivity|]. intro H. inversion H as [|? ? ? ? H1 _]; subst. destruct H1 as (_ & E & _). discriminate E.
  - eexists. split; [vm_compute; reflexivity|]. intro H. inversion H as [|? ? ? ? _ H1]; subst. inversion H1 as [|? ? ? ? H2 _]; subst. destruct H2 as (_ & E & _). discriminate E.
Qed.
Print Assumptions c79_atomic_refuted.
