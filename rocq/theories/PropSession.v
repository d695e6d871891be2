(** * Property C75: what programs that insert rows leave in the file *)
From Coq Require Import NArith ZArith List Bool Lia.
From Coq Require Import ZifyBool ZifyNat ZifyN.
From Verif Require Import Base BaseFacts Segs Str StrFacts StrGood Schema SchemaFacts Oa OaFacts OaSpec Rows RowFacts RowSpec Page BitFacts PageFacts PageRw PageSpec Alloc AllocFacts AllocSpec
  Db DbFacts DbFlush DbFresh Reread Progress Insert Session PropAlloc.
Import ListNotations.
Open Scope N_scope.

(** Programs open the file, load pages, allocate and insert rows, and save; then they do this again, any number of times.  At the start,
    the pages described by the shelves [A] are in the file, see [good_page].  Rows are inserted in pages that can take them.  Then the file that the last program leaves can be
    opened, and the row iterator shows the rows that are on the shelves: those that were there before, followed by the ones inserted in each page. *)
Theorem c75_sessions : forall b k io d G A ess io',
  bytes_ok io -> len io < 2 ^ 64 - 1 -> db_open io k = DOk d -> 28 + 16 * len (dh_tables (db_header d)) <= dh_page_size (db_header d) ->
  (forall i s, A i = Some s -> exists p, good_page b d (G i) i p /\ like s p) -> allowed b G A (concat ess) ->
  sessions b k io ess io' ->
  let A' := work (concat ess) A in
  exists d', db_open io' k = DOk d' /\ db_header d' = db_header d /\ stores b d' G A' /\
    forall r i t l, find_table (PT r) (db_header d) = Some (i, t) -> path A (tb_last t) (tb_first t) l ->
      forallb (is_variant r) (flat_map (shelf_rows A') l) = true ->
      exists rows, snd (iter_rows b r d') = Some (DOk rows) /\ Forall2 same_values (flat_map (shelf_rows A') l) rows.
Proof.
  intros b k io d G A ess io' HB HL HO HP HA HW HS A'. pose proof (open_stores b io k d G A HB HL HO HP HA) as HST.
  destruct (sessions_stores b k io ess io' HS d G A HO HST HW) as (d' & D1 & D2 & D3). exists d'. split; [exact D1|]. split; [exact D2|]. split; [exact D3|].
  intros r i t l HT HPA HV. rewrite <- D2 in HT. apply (stores_rows b d' G A' r i t l D3 HT); [now apply path_work|exact HV].
Qed.
Print Assumptions c75_sessions.
(** If pages have at most 4096 bytes, none of these programs fails or panics. *)
Theorem c75_run : forall b k io d G A ess,
  bytes_ok io -> len io < 2 ^ 64 - 1 -> db_open io k = DOk d -> 28 + 16 * len (dh_tables (db_header d)) <= dh_page_size (db_header d) -> dh_page_size (db_header d) <= 4096 ->
  (forall i s, A i = Some s -> exists p, good_page b d (G i) i p /\ like s p) -> allowed b G A (concat ess) ->
  exists io', sessions b k io ess io'.
Proof. intros b k io d G A ess HB HL HO HP H4 HA HW. apply (sessions_run b k G ess io d A); try easy. now apply (open_stores b io k). Qed.
Print Assumptions c75_run.
(** A request for the predicted size of a row that can be written is a valid one. *)
Theorem c75_predicted : forall b r ty bs p, row_ok dstr_good r -> row_calc r -> r <> RUnknown -> row_ptype_ok ty r -> row_write b r ([], 0) = Ok (bs, p) -> len bs <= 65528 ->
  exists n, row_heap b r = Ok n /\ n <= 65528 /\ op_fine b ty (n, Some r).
Proof.
  intros b r ty bs p H1 H2 H3 H4 H5 H6. assert (row_heap b r = Ok (len bs)) as HH.
  { destruct (row_heap_extent b r [] bs p) as (n & E & EL & _); try easy; [now apply good_inv|change (len (@nil N)) with 0; lia|]. rewrite E. change (len (@nil N)) with 0 in EL. f_equal. lia. }
  exists (len bs). split; [exact HH|]. split; [easy|]. split.
  - destruct (heap_insertable b r ty bs p) as (n & E & HI); try easy; [lia|]. rewrite HH in E. injection E as <-. split; [exact H6|exact HI].
  - cbn [snd]. now exists (bs, p).
Qed.
Print Assumptions c75_predicted.
(** What is on the shelves.  The requests for a page, in order: *)
Definition requests (i : N) (es : list edit) : list (N * option row) := flat_map (fun e => if fst e =? i then snd e else []) es.
(** Rows that were on a shelf stay there, in front and in their order. *)
Theorem c75_kept : forall es A i s, A i = Some s -> exists s' new, work es A i = Some s' /\ sh_rows s' = sh_rows s ++ new.
Proof.
  induction es as [|e es IH]; intros A i s H; [exists s, []; now rewrite app_nil_r|]. change (work (e :: es) A) with (work es (work1 A e)).
  destruct (i =? fst e) eqn:E.
  - destruct (places_prefix (snd e) s) as [n1 E1]. destruct (IH (work1 A e) i (places (snd e) s)) as (s' & n2 & E2 & E3); [unfold work1; now rewrite E, H|].
    exists s', (n1 ++ n2). split; [easy|]. now rewrite E3, E1, app_assoc.
  - apply IH. unfold work1. now rewrite E.
Qed.
Print Assumptions c75_kept.
(** If a page has room for all requests, 6 bytes more than the rounded size for each, all rows are on the shelf, in the order in which they were inserted. *)
Theorem c75_all : forall es A i s, A i = Some s -> fold_right N.add 0 (map (fun op => (fst op + 3) / 4 * 4 + 6) (requests i es)) <= sh_free s ->
  exists s', work es A i = Some s' /\ sh_rows s' = sh_rows s ++ flat_map (fun op => match snd op with Some r => [r] | None => [] end) (requests i es).
Proof.
  intros es A i s H HF. exists (places (requests i es) s). split; [|now apply places_all]. clear HF. revert A s H. induction es as [|e es IH]; intros A s H; [easy|].
  change (work (e :: es) A) with (work es (work1 A e)). unfold requests. cbn [flat_map]. rewrite N.eqb_sym. destruct (i =? fst e) eqn:E.
  - unfold places at 1. rewrite fold_left_app. apply IH. unfold work1. now rewrite E, H.
  - cbn [app]. apply IH. unfold work1. now rewrite E.
Qed.
Print Assumptions c75_all.
(** Pages that no program inserted rows in have the same shelf. *)
Theorem c75_others : forall es A i, requests i es = [] -> work es A i = A i.
Proof.
  induction es as [|e es IH]; intros A i H; [easy|]. change (work (e :: es) A) with (work es (work1 A e)). unfold requests in H. cbn [flat_map] in H. apply app_eq_nil in H as [H1 H2]. rewrite (IH _ _ H2).
  unfold work1. rewrite N.eqb_sym. destruct (fst e =? i); [|easy]. rewrite H1. now destruct (A i).
Qed.
Print Assumptions c75_others.

(** ** Example: a page with two rows, a page that cannot be read; three programs, the last one only loads a page *)
Definition c75_header : dbhdr := mk_dbhdr 198 1 3 0 7 [mk_table (PT KKey) 9 1 1].
Definition c75_page : page := mk_page c18_header (PData c18_content).
Definition c75_io : list N := Eval vm_compute in match flush Debug (mk_db (repeat 0 396 ++ repeat 255 204) DbPlain c75_header [Some c75_page; None]) with DOk d => db_io d | _ => [] end.
Definition c75_open : database := mk_db c75_io DbPlain c75_header [None; None].
Definition c75_shelves : shelves := fun i => if i =? 1 then Some (mk_shelf (PT KKey) 6 112 3 (map snd c18_rows)) else None.
Definition c75_programs : list (list edit) := [[(1, [(11, Some c18_new)]); (1, [(8, None)])]; [(1, [(12, Some c18_new); (300, Some c18_new)])]; [(1, [])]].
Lemma c75_opens : db_open c75_io DbPlain = DOk c75_open.
Proof. vm_compute. reflexivity. Qed.
Lemma c75_read : exists gs z, rd_page Debug (rd_dstr_strict Debug) 198 DbPlain c75_io 198 = Ok (mk_page c18_header (PData (mk_dcontent (dc_header c18_content) gs c18_rows)), z) /\ gs = dc_groups c18_content.
Proof. eexists _, _. vm_compute. split; reflexivity. Qed.
Example c75_example_hyp : bytes_ok c75_io /\ (forall i s, c75_shelves i = Some s -> exists p, good_page Debug c75_open GGrow i p /\ like s p) /\
  allowed Debug (fun _ => GGrow) c75_shelves (concat c75_programs) /\ path c75_shelves 1 1 [1].
Proof.
  assert (can_grow Debug DbPlain 198 c75_page) as HG by (exists c18_header, c18_content; split; [easy|exact c19_example_ok]).
  assert (forall r, In r (c18_new :: map snd c18_rows) -> row_writes Debug r) as HW.
  { intros r [<-|[<-|[<-|[]]]]; eexists; vm_compute; reflexivity. }
  split; [|split; [|split]].
  - apply Forall_forall. intros x Hx. assert (forallb (fun x => x <? 256) c75_io = true) as E by (vm_compute; reflexivity). rewrite forallb_forall in E. specialize (E x Hx). cbv beta in E. lia.
  - intros i s H. unfold c75_shelves in H. destruct (i =? 1) eqn:E; [|easy]. assert (i = 1) as -> by lia. injection H as <-. exists c75_page. split.
    + unfold good_page. cbn [c75_open db_header db_kind dh_page_size dh_next c75_header db_io]. split; [easy|]. split; [easy|]. split; [now apply grow_consistent|]. split.
      { unfold page_writes. cbn [c75_page pg_content c18_content dc_rows]. apply Forall_forall. intros x Hx. apply HW. right. now apply in_map. }
      split; [easy|]. destruct c75_read as (gs & z & E1 & E2). exists z. rewrite E2 in E1. exact E1.
    + split; [reflexivity|]. split; [reflexivity|]. split; [reflexivity|]. split; [reflexivity|]. cbn. repeat constructor.
  - pose proof c19_example_ops as HO. unfold c19_ops in HO. inversion HO as [|? ? O1 HO1]; subst. inversion HO1 as [|? ? O2 HO2]; subst. inversion HO2 as [|? ? O3 HO3]; subst. inversion HO3 as [|? ? O4 _]; subst.
    unfold c75_programs. cbn [concat app]. assert (row_writes Debug c18_new) as HN by (apply HW; now left).
    repeat (apply Forall_cons; [eexists; split; [reflexivity|right; split; [reflexivity|]]; cbn [snd sh_type]; repeat (apply Forall_cons; [split; [assumption|cbn [snd]; try exact I; assumption]|]); apply Forall_nil|]). apply Forall_nil.
  - now apply (path_last _ 1 (mk_shelf (PT KKey) 6 112 3 (map snd c18_rows))).
Qed.
(** The second program's last request is refused, there is no room for 300 bytes.  The other rows are on the shelf, and are shown. *)
Example c75_example : shelf_rows (work (concat c75_programs) c75_shelves) 1 = map snd c18_rows ++ [c18_new; c18_new] /\ exists io', sessions Debug DbPlain c75_io c75_programs io' /\
  exists d', db_open io' DbPlain = DOk d' /\ snd (iter_rows Debug KKey d') = Some (DOk (map snd c18_rows ++ [c18_new; c18_new])) /\ io' <> c75_io /\ hasb io' 396 (repeat 255 198) = true.
Proof.
  split; [vm_compute; reflexivity|]. eexists. split.
  - eapply sessions_cons; [|eapply sessions_cons; [|eapply sessions_cons; [|apply sessions_nil]]].
    + eexists _, _, _. split; [exact c75_opens|]. split; [|split; [|reflexivity]].
      * eapply edits_cons; [vm_compute; reflexivity|vm_compute; reflexivity|]. eapply edits_cons; [vm_compute; reflexivity|vm_compute; reflexivity|]. apply edits_nil.
      * vm_compute. reflexivity.
    + eexists _, _, _. split; [vm_compute; reflexivity|]. split; [|split; [|reflexivity]].
      * eapply edits_cons; [vm_compute; reflexivity|vm_compute; reflexivity|]. apply edits_nil.
      * vm_compute. reflexivity.
    + eexists _, _, _. split; [vm_compute; reflexivity|]. split; [|split; [|reflexivity]].
      * eapply edits_cons; [vm_compute; reflexivity|vm_compute; reflexivity|]. apply edits_nil.
      * vm_compute. reflexivity.
  - eexists. split; [vm_compute; reflexivity|]. split; [vm_compute; reflexivity|]. split; [vm_compute; discriminate|]. vm_compute. reflexivity.
Qed.
