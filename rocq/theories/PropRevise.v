(** * Property C78: programs that change rows in place *)
From Coq Require Import NArith ZArith List Bool Lia.
From Coq Require Import ZifyBool ZifyNat ZifyN.
From Verif Require Import Base BaseFacts Segs Str StrFacts StrGood Schema SchemaFacts Oa OaFacts OaSpec Rows RowFacts RowSpec Page BitFacts PageFacts PageRw PageSpec Alloc AllocFacts AllocSpec
  Db DbFacts DbFlush DbFresh Reread Progress Insert Session Revise PropAlloc PropSession.
Import ListNotations.
Open Scope N_scope.

(** Programs open the file, assign fields in the rows of pages or of whole tables, insert rows, save in between, save at the end; any number of programs.
    Pages are only loaded if they may be written, new values are [modest]: they do not take more bytes than the old ones.  [P k] are the pages of table [k].
    Then the file that the last program leaves can be opened, and the row iterator shows the rows with the new values, and all other rows as they were. *)
Theorem c78_programs : forall b k io d G P A ls io',
  bytes_ok io -> len io < 2 ^ 64 - 1 -> db_open io k = DOk d -> 28 + 16 * len (dh_tables (db_header d)) <= dh_page_size (db_header d) ->
  (forall i s, A i = Some s -> exists p, good_page b d (G i) i p /\ like s p) -> acts_ok b (db_header d) G P A (concat ls) ->
  programs b k io ls io' ->
  let A' := acts_work P A (concat ls) in
  exists d', db_open io' k = DOk d' /\ db_header d' = db_header d /\ stores b d' G A' /\
    forall r i t l, find_table (PT r) (db_header d) = Some (i, t) -> path A' (tb_last t) (tb_first t) l ->
      forallb (is_variant r) (flat_map (shelf_rows A') l) = true ->
      exists rows, snd (iter_rows b r d') = Some (DOk rows) /\ Forall2 same_values (flat_map (shelf_rows A') l) rows.
Proof.
  intros b k io d G P A ls io' HB HL HO HP HA HW HS A'. pose proof (open_stores b io k d G A HB HL HO HP HA) as HST.
  destruct (programs_stores b k io ls io' HS d G P A HO HST HW) as (d' & D1 & D2 & D3). exists d'. split; [exact D1|]. split; [exact D2|]. split; [exact D3|].
  intros r i t l HT HPA HV. rewrite <- D2 in HT. now apply (stores_rows b d' G A' r i t l D3 HT).
Qed.
Print Assumptions c78_programs.
(** The rows can be seen before they are saved as well. *)
Theorem c78_unsaved : forall b k io d G P A l d',
  bytes_ok io -> len io < 2 ^ 64 - 1 -> db_open io k = DOk d -> 28 + 16 * len (dh_tables (db_header d)) <= dh_page_size (db_header d) ->
  (forall i s, A i = Some s -> exists p, good_page b d (G i) i p /\ like s p) -> acts_ok b (db_header d) G P A l ->
  acts b d l d' ->
  let A' := acts_work P A l in
  forall r i t q, find_table (PT r) (db_header d) = Some (i, t) -> path A' (tb_last t) (tb_first t) q ->
      forallb (is_variant r) (flat_map (shelf_rows A') q) = true ->
      exists rows, snd (iter_rows b r d') = Some (DOk rows) /\ Forall2 same_values (flat_map (shelf_rows A') q) rows.
Proof.
  intros b k io d G P A l d' HB HL HO HP HA HW HS A' r i t q HT HPA HV. pose proof (open_stores b io k d G A HB HL HO HP HA) as HST.
  destruct (acts_stores b d l d' HS G P A HST HW) as (D1 & D2 & D3). rewrite <- D2 in HT. now apply (stores_rows b d' G A' r i t q D1 HT).
Qed.
Print Assumptions c78_unsaved.
(** If pages have at most 4096 bytes, none of these programs fails or panics. *)
Theorem c78_run : forall b k io d G P A ls,
  bytes_ok io -> len io < 2 ^ 64 - 1 -> db_open io k = DOk d -> 28 + 16 * len (dh_tables (db_header d)) <= dh_page_size (db_header d) -> dh_page_size (db_header d) <= 4096 ->
  (forall i s, A i = Some s -> exists p, good_page b d (G i) i p /\ like s p) -> acts_ok b (db_header d) G P A (concat ls) ->
  exists io', programs b k io ls io'.
Proof. intros b k io d G P A ls HB HL HO HP H4 HA HW. apply (programs_run b k G P ls io d A); try easy. now apply (open_stores b io k). Qed.
Print Assumptions c78_run.
(** Assigning in a table keeps the pages, and changes each row once. *)
Lemma revised_app f : forall l l' i, revised f i (l ++ l') = revised f i l ++ revised f (i + len l) l'.
Proof.
  induction l as [|r l IH]; intros l' i; [cbn [app revised]; now rewrite len_nil, N.add_0_r|]. replace (i + len (r :: l)) with (i + 1 + len l) by (rewrite len_cons; lia).
  destruct r; cbn [app revised]; now rewrite IH.
Qed.
Lemma revise_all_other f : forall l i A j, ~ In j l -> revise_all f l i A j = A j.
Proof.
  induction l as [|x l IH]; intros i A j H; [easy|]. cbn [revise_all]. destruct (A x) as [s|]; [|easy]. rewrite IH by (intro; apply H; now right). unfold put. destruct (j =? x) eqn:E; [|easy].
  exfalso. apply H. left. lia.
Qed.
Theorem c78_table : forall f A last first l, path A last first l -> forall i,
  path (revise_all f l i A) last first l /\ flat_map (shelf_rows (revise_all f l i A)) l = revised f i (flat_map (shelf_rows A) l) /\
  forall j, ~ In j l -> revise_all f l i A j = A j.
Proof.
  intros f A last first l HP. assert (forall l0 n, path A last n l0 -> forall A0 i, (forall j, n <= j -> A0 j = A j) -> path (revise_all f l0 i A0) last n l0 /\ flat_map (shelf_rows (revise_all f l0 i A0)) l0 = revised f i (flat_map (shelf_rows A) l0)) as HX.
  { clear. intros l n HP. induction HP as [s E|n s l NE E HI HP IH]; intros A0 i HE.
    - cbn [revise_all]. rewrite HE, E by lia. cbn [revise_all]. assert (put A0 last (revise f i s) last = Some (revise f i s)) as EP by (unfold put; now rewrite N.eqb_refl).
      split; [now apply (path_last _ _ (revise f i s))|]. cbn [flat_map]. unfold shelf_rows. rewrite EP, E, !app_nil_r. reflexivity.
    - cbn [revise_all]. rewrite HE, E by lia. pose proof (path_ge _ _ _ _ HP) as HG. assert (~ In n l) as HNI by (intro HX; rewrite Forall_forall in HG; apply HG in HX; lia).
      destruct (IH (put A0 n (revise f i s)) (i + len (sh_rows s))) as [P1 P2]. { intros j HJ. unfold put. replace (j =? n) with false by lia. apply HE. lia. }
      set (B := revise_all f l (i + len (sh_rows s)) (put A0 n (revise f i s))) in *. assert (B n = Some (revise f i s)) as EB by (unfold B; rewrite revise_all_other by easy; unfold put; now rewrite N.eqb_refl).
      split; [now apply (path_step _ _ n (revise f i s))|]. cbn [flat_map]. rewrite P2. unfold shelf_rows at 1 3. rewrite EB, E. cbn [revise sh_rows]. now rewrite revised_app. }
  intro i. destruct (HX l first HP A i) as [H1 H2]; [easy|]. split; [exact H1|]. split; [exact H2|]. intro j. apply revise_all_other.
Qed.
Print Assumptions c78_table.

(** Numbers can always be assigned, except for the subtype of rows with an offset array; texts if the new one takes no more bytes than the old one. *)
Lemma assign_one b Q : forall fs vs i f v v' bs x x', fields_ok Q fs vs -> enc_fields b fs vs = Ok bs -> nth_error fs i = Some f -> nth_error vs i = Some v -> field_ok Q f v' ->
  enc_field b f v = Ok x -> enc_field b f v' = Ok x' -> len x' <= len x -> fields_ok Q fs (set_nth i v' vs) /\ exists bs', enc_fields b fs (set_nth i v' vs) = Ok bs' /\ len bs' <= len bs.
Proof.
  induction fs as [|f0 fs IH]; intros vs i f v v' bs x x' HV HE HF HN HO E E' HL; [now destruct i|]. inversion HV as [|? v0 ? vs0 V1 V2]; subst. cbn [enc_fields] in HE.
  destruct (enc_field b f0 v0) as [y| |] eqn:EY; try easy. cbn [res_bind] in HE. destruct (enc_fields b fs vs0) as [z| |] eqn:EZ; try easy. cbn [res_bind] in HE. injection HE as <-. destruct i as [|i].
  - injection HF as <-. injection HN as <-. rewrite E in EY. injection EY as <-. cbn [set_nth]. split; [now constructor|]. cbn [enc_fields]. rewrite E'. cbn [res_bind]. rewrite EZ. eexists. split; [reflexivity|]. rewrite !len_app. lia.
  - cbn [nth_error set_nth] in *. destruct (IH vs0 i f v v' z x x' V2 EZ HF HN HO E E' HL) as (I1 & bs' & I2 & I3). split; [now constructor|]. cbn [enc_fields]. rewrite EY. cbn [res_bind]. rewrite I2. eexists. split; [reflexivity|]. rewrite !len_app. lia.
Qed.
Lemma same_osize i v vs : i <> 0%nat -> row_osize (set_nth i v vs) = row_osize vs.
Proof. intro H. destruct vs as [|x vs]; [now destruct i|]. destruct i as [|i]; [easy|]. reflexivity. Qed.
Lemma writes_fields b k vs oc : row_writes b (RRow k vs oc) -> exists bs, enc_fields b (row_fields k) vs = Ok bs.
Proof. intros [s H]. cbn [row_write] in H. destruct (enc_fields b (row_fields k) vs) as [bs| |]; [now exists bs| |]; easy. Qed.
Theorem c78_number : forall b k vs oc i f v', row_ok dstr_good (RRow k vs oc) -> row_writes b (RRow k vs oc) -> nth_error (row_fields k) i = Some f -> f <> FStr -> field_ok dstr_good f v' ->
  (row_oarr k = None \/ i <> 0%nat) -> modest b (fields_only (set_nth i v')) (RRow k vs oc).
Proof.
  intros b k vs oc i f v' HR HW HF HS HO HI. pose proof HR as [HV _]. pose proof HW as HW0. apply writes_fields in HW as [bs HE].
  assert (exists v, nth_error vs i = Some v /\ field_ok dstr_good f v) as (v & EV & HOV).
  { clear - HV HF. revert i HF. induction HV as [|f0 v0 fs vs0 H1 _ IH]; intros i HF; [now destruct i|]. destruct i as [|i]; [injection HF as <-; now exists v0|now apply IH]. }
  assert (forall w, field_ok dstr_good f w -> exists x, enc_field b f w = Ok x /\ len x = field_size f) as HX.
  { intros w HWO. destruct (fields_enc_size b dstr_good [f] [w]) as (x & E & L); [now destruct f|now repeat constructor|]. cbn [enc_fields] in E. destruct (enc_field b f w) as [y| |]; try easy. cbn [res_bind] in E. injection E as <-.
    rewrite app_nil_r in L. exists y. split; [easy|]. cbn in L. lia. }
  destruct (HX v HOV) as (x & EX & LX). destruct (HX v' HO) as (x' & EX' & LX'). destruct (assign_one b dstr_good (row_fields k) vs i f v v' bs x x') as (A1 & bs' & A2 & A3); try easy; [lia|].
  apply (modest_fields b _ k vs oc bs bs'); try easy. intro HK. destruct HI as [HI|HI]; [easy|now apply same_osize].
Qed.
Print Assumptions c78_number.
Theorem c78_text : forall b k vs oc i d d' x x', row_ok dstr_good (RRow k vs oc) -> row_writes b (RRow k vs oc) -> nth_error (row_fields k) i = Some FStr -> nth_error vs i = Some (VStr d) -> dstr_good d' ->
  dstr_enc b d = Ok x -> dstr_enc b d' = Ok x' -> len x' <= len x -> modest b (fields_only (set_nth i (VStr d'))) (RRow k vs oc).
Proof.
  intros b k vs oc i d d' x x' HR HW HF HN HO E E' HL. pose proof HR as [HV _]. pose proof HW as HW0. apply writes_fields in HW as [bs HE].
  destruct (assign_one b dstr_good (row_fields k) vs i FStr (VStr d) (VStr d') bs x x') as (A1 & bs' & A2 & A3); try easy.
  apply (modest_fields b _ k vs oc bs bs'); try easy. intro HK. exfalso. destruct (row_oarr k) as [[off m]|] eqn:EK; [|easy]. apply row_oarr_fields in EK as (F & _). unfold no_str in F. rewrite forallb_forall in F.
  apply nth_error_In, F in HF. discriminate.
Qed.
Print Assumptions c78_text.

(** ** Example: the file of C75; the first program numbers the keys of the table, saves, inserts a key; the second one renames a key. *)
Definition c78_number_keys (i : N) : change := fields_only (set_nth 0 (VInt (100 + i))).
Definition c78_rename (i : N) : change := if i =? 0 then fields_only (set_nth 2 (VStr (DSShort [67]))) else fields_only (fun vs => vs).
Definition c78_acts : list (list act) := [[AAssignAll KKey c78_number_keys; ASave; AInsert 1 [(11, Some c18_new)]]; [AAssign 1 c78_rename]].
Definition c78_tables (k : rkind) : list N := [1].
Lemma c78_key id n c : id < 1000 -> n < 1000 -> c < 128 -> forall t, (t = [c] \/ t = [c; 109]) -> row_ok dstr_good (RRow KKey [VInt id; VInt n; VStr (DSShort t)] None) /\ row_writes Debug (RRow KKey [VInt id; VInt n; VStr (DSShort t)] None).
Proof.
  intros H1 H2 H3 t HT. split.
  - split; [|exact I]. constructor; [cbn; lia|]. constructor; [cbn; lia|]. constructor; [|constructor]. cbn [field_ok]. destruct HT as [->| ->]; (split; [|split; [intros v [=]|exact I]]); (split; [cbn; lia|]); repeat constructor; lia.
  - eexists. cbn [row_write row_fields enc_fields enc_field row_oarr dstr_enc res_bind wr_bytes]. reflexivity.
Qed.
Lemma c78_id id n c t v : id < 1000 -> n < 1000 -> c < 128 -> (t = [c] \/ t = [c; 109]) -> v < 1000 -> modest Debug (fields_only (set_nth 0 (VInt v))) (RRow KKey [VInt id; VInt n; VStr (DSShort t)] None).
Proof. intros H1 H2 H3 HT HV. destruct (c78_key id n c H1 H2 H3 t HT) as [K1 K2]. apply (c78_number _ _ _ _ 0 u32f); try easy; [cbn; lia|now left]. Qed.
Lemma c78_same b r : row_ok dstr_good r -> row_writes b r -> modest b (fields_only (fun vs => vs)) r.
Proof. destruct r as [k vs oc|]; [|easy]. intros HR HW. pose proof HR as [H1 H2]. pose proof HW as HW0. apply writes_fields in HW as [bs HE]. now apply (modest_fields b _ k vs oc bs bs). Qed.
Example c78_example_hyp : acts_ok Debug c75_header (fun _ => GGrow) c78_tables c75_shelves (concat c78_acts).
Proof.
  pose proof c19_example_ops as HO. unfold c19_ops in HO. inversion HO as [|? ? O1 _]; subst.
  cbn [concat c78_acts app acts_ok act_ok]. split; [|split; [exact I|split; [|split; [|exact I]]]].
  - exists 0, (mk_table (PT KKey) 9 1 1). split; [reflexivity|]. split; [now apply (path_last _ 1 (mk_shelf (PT KKey) 6 112 3 (map snd c18_rows)))|]. split; [apply Forall_cons; [discriminate|apply Forall_nil]|]. split; [reflexivity|].
    change (flat_map (shelf_rows c75_shelves) (c78_tables KKey)) with [RRow KKey [VInt 1; VInt 1; VStr (DSShort [65; 109])] None; RRow KKey [VInt 2; VInt 2; VStr (DSShort [66])] None].
    cbn [modest_rows]. split; [|split; [|exact I]]; unfold c78_number_keys; [apply (c78_id 1 1 65)|apply (c78_id 2 2 66)]; try reflexivity; [now right|now left].
  - eexists. split; [reflexivity|]. right. split; [reflexivity|]. cbn [snd]. apply Forall_cons; [|apply Forall_nil]. split; [exact O1|]. cbn [snd]. eexists; vm_compute; reflexivity.
  - eexists. split; [vm_compute; reflexivity|]. split; [discriminate|]. cbn [sh_rows modest_rows]. split; [|split; [|split; [|exact I]]].
    + destruct (c78_key 100 1 65) with (t := [65; 109]) as [K1 K2]; try reflexivity; [now right|]. change (c78_rename 0) with (fields_only (set_nth 2 (VStr (DSShort [67])))).
      apply (c78_text _ _ _ _ 2 (DSShort [65; 109]) (DSShort [67]) [7; 65; 109] [5; 67]); try easy. split; [|split; [intros v [=]|exact I]]. split; [cbn; lia|]. repeat constructor; lia.
    + apply c78_same; apply (c78_key 101 2 66); try reflexivity; now left.
    + apply c78_same; apply (c78_key 9 9 70); try reflexivity; now right.
Qed.
Example c78_example : exists io', programs Debug DbPlain c75_io c78_acts io' /\ exists d', db_open io' DbPlain = DOk d' /\
  snd (iter_rows Debug KKey d') = Some (DOk [RRow KKey [VInt 100; VInt 1; VStr (DSShort [67])] None; RRow KKey [VInt 101; VInt 2; VStr (DSShort [66])] None; c18_new]).
Proof.
  eexists. split.
  - eapply programs_cons; [|eapply programs_cons; [|apply programs_nil]].
    + eexists _, _, _. split; [exact c75_opens|]. split; [|split; [|reflexivity]].
      eapply acts_cons; [apply does_all; vm_compute; reflexivity|]. eapply acts_cons; [apply does_save; vm_compute; reflexivity|].
      eapply acts_cons; [eapply does_insert; vm_compute; reflexivity|]. apply acts_nil. vm_compute. reflexivity.
    + eexists _, _, _. split; [vm_compute; reflexivity|]. split; [|split; [|reflexivity]].
      eapply acts_cons; [eapply does_assign; vm_compute; reflexivity|]. apply acts_nil. vm_compute. reflexivity.
  - eexists. split; [vm_compute; reflexivity|]. vm_compute. reflexivity.
Qed.
(** The condition on the size is necessary, the library does not check it.  A program that gives the first key a longer name runs without an error; the end of the
    name is overwritten by the next row, so that another name is read. *)
Definition c78_long (i : N) : change := if i =? 0 then fields_only (set_nth 2 (VStr (DSShort (repeat 65 20)))) else fields_only (fun vs => vs).
Theorem c78_longer_refuted : exists io io' d' rows, bytes_ok io /\ db_open io DbPlain = DOk c75_open /\
  snd (iter_rows Debug KKey c75_open) = Some (DOk (map snd c18_rows)) /\
  program Debug DbPlain io [AAssignAll KKey c78_long] io' /\ db_open io' DbPlain = DOk d' /\
  snd (iter_rows Debug KKey d') = Some (DOk rows) /\ ~ Forall2 same_values (revised c78_long 0 (map snd c18_rows)) rows.
Proof.
  exists c75_io. eexists _, _, _. split; [apply c75_example_hyp|]. split; [exact c75_opens|]. split; [vm_compute; reflexivity|]. split; [|split; [|split]].
  - eexists _, _, _. split; [exact c75_opens|]. split; [|split; [|reflexivity]]. eapply acts_cons; [apply does_all; vm_compute; reflexivity|]. apply acts_nil. vm_compute. reflexivity.
  - vm_compute. reflexivity.
  - vm_compute. reflexivity.
  - vm_compute. intro H. inversion H as [|? ? ? ? H1 _]. destruct H1 as (_ & E & _). discriminate E.
Qed.
Print Assumptions c78_longer_refuted.
(** A longer name of the last key reaches into the next page, which the program did not load. *)
Definition c78_last (i : N) : change := if i =? 1 then fields_only (set_nth 2 (VStr (DSShort (repeat 65 126)))) else fields_only (fun vs => vs).
Theorem c78_last_refuted : exists io io', bytes_ok io /\ db_open io DbPlain = DOk c75_open /\ dh_page_size (db_header c75_open) = 198 /\
  program Debug DbPlain io [AAssign 1 c78_last] io' /\ getN io (2 * 198) = Some 255 /\ getN io' (2 * 198) = Some 65.
Proof.
  exists c75_io. eexists _. split; [apply c75_example_hyp|]. split; [exact c75_opens|]. split; [reflexivity|]. split; [|split].
  - eexists _, _, _. split; [exact c75_opens|]. split; [|split; [|reflexivity]]. eapply acts_cons; [eapply does_assign; vm_compute; reflexivity|]. apply acts_nil. vm_compute. reflexivity.
  - vm_compute. reflexivity.
  - vm_compute. reflexivity.
Qed.
Print Assumptions c78_last_refuted.
