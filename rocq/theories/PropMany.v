(** * Property C121: of several programs, the last one that saves a page wins *)
From Coq Require Import NArith ZArith List Bool Lia.
From Coq Require Import ZifyBool ZifyNat ZifyN.
From Verif Require Import Base BaseFacts Segs Str StrFacts StrGood Schema SchemaFacts Oa OaFacts Rows RowFacts RowSpec Page PageFacts PageRw PageSpec Alloc AllocFacts AllocSpec Db DbFacts DbFlush DbFresh Insert Session Revise Cut Confine Window Conc Many
  PropAlloc PropSession PropRevise PropCut PropConc.
Import ListNotations.
Open Scope N_scope.

(** Any number of programs open a file and then, in any interleaving, load pages, change the pages they have loaded, change the header and save, with headers that keep the page size.  Then the
    file opens with the header of the last save.  Each page is read with the header and the rows, or the index entries, that it had in the memory of the last program that saved while it had
    the page in memory, whatever other programs did to this page; a page that no such program had in memory keeps its bytes. *)
Theorem c121_last : forall b k io d l io' m', bytes_ok io -> db_open io k = DOk d -> let h := db_header d in let ps := dh_page_size h in let m := fun _ => (h, db_pages d) in
  many b k io m l = Some (io', m') -> many_fit b k ps io m l ->
  exists d', db_open io' k = DOk d' /\ db_header d' = last_header h (saves b k io m l) /\
    forall i, 1 <= i -> i < dh_next (db_header d') -> (i + 1) * ps <= len io ->
      match last_page i (saves b k io m l) with
      | Some p => page_consistent b k ps p -> exists q, snd (load_page b d' i) = DOk q /\ page_kept p q
      | None => forall x, i * ps <= x < (i + 1) * ps -> getN io' x = getN io x
      end.
Proof.
  intros b k io d l io' m' HB HO h ps m HR HM. assert (dbhdr_ok k h /\ has io 0 (dbhdr_enc h)) as HH.
  { unfold db_open in HO. destruct (rd_dbhdr k io 0) as [[h0 z]| |] eqn:E; try discriminate. injection HO as <-. now apply dbhdr_rw in E as (E1 & E2 & _). }
  destruct (many_header b k ps l _ _ _ _ h HR HM HH) as [HK HH']. set (h' := last_header h (saves b k io m l)) in *. assert (dh_page_size h' = ps) as EP.
  { subst h'. clear -HM. unfold last_header. assert (dh_page_size h = ps) as E by reflexivity. revert HM E. generalize ps as s. generalize h as g. generalize m as mm. generalize io as ioo.
    induction l as [|[w s] l IH]; intros io0 m0 h0 ps0 HM E; cbn [saves many_fit] in *; [exact E|]. destruct HM as [M1 M2]. rewrite fold_left_app.
    assert (dh_page_size (fold_left (fun _ (x : memory) => fst x) (match s with Step OSave => [m0 w] | _ => [] end) h0) = ps0) as X.
    { destruct s as [[| |]|]; try exact E. destruct (M1 eq_refl) as (_ & _ & _ & X). exact X. }
    destruct (do_step b k io0 (m0 w) s) as [[io1 x]|]; [|exact X]. now apply IH. }
  apply (dbhdr_wr k) in HH'; [|exact HK].
  unfold db_open. rewrite HH'. eexists. split; [reflexivity|]. split; [reflexivity|]. cbn [db_header]. intros i I1 I2 I3.
  assert (shows b k ps io i io None) as S0 by (intros x _; reflexivity). destruct (many_shows b k ps io i I1 l io _ io' m' None HR HM I3 S0) as [L S]. fold (last_page i (saves b k io m l)) in S.
  destruct (last_page i (saves b k io m l)) as [p|]; cbn [shows] in S; [|exact S]. intro HC. destruct (S HC) as (ls & P1 & P2 & P3).
  destruct (stored_reads b k ps (i * ps) p ls io' HC P1 P3) as (q & z & Q1 & Q2). exists q. split; [|now apply (reads_kept b)].
  destruct HK as (O1 & O2 & O3 & _). rewrite EP in O1. unfold is_u32 in *. set (pgs := repeat (@None page) (N.to_nat (dh_next h' - 1))).
  assert (len pgs = dh_next h' - 1) as HLL by (unfold len, pgs; rewrite repeat_length; lia).
  rewrite load_page_present by (cbn [db_pages]; lia). cbn [db_pages]. assert (getN pgs (i - 1) = Some None) as ->.
  { destruct (getN_lt_Some pgs (i - 1)) as [x E]; [lia|]. rewrite E. f_equal. assert (In x pgs) as X by (apply in_getN; now exists (i - 1)). now apply repeat_spec in X. }
  rewrite read_page_eq by (cbn [db_header]; try rewrite EP; lia). cbn [db_header db_kind db_io]. rewrite EP. now rewrite Q1.
Qed.
Print Assumptions c121_last.
(** So what a program has saved stays in the file as long as no other program saves that has the page in memory, whatever headers they save. *)
Theorem c121_stays : forall b k io d l1 w l2 io1 m1 io2 m2 io' m' i p, bytes_ok io -> db_open io k = DOk d -> let h := db_header d in let ps := dh_page_size h in let m := fun _ => (h, db_pages d) in
  many b k io m (l1 ++ (w, Step OSave) :: l2) = Some (io', m') -> many_fit b k ps io m (l1 ++ (w, Step OSave) :: l2) ->
  many b k io m l1 = Some (io1, m1) -> many b k io1 m1 [(w, Step OSave)] = Some (io2, m2) ->
  1 <= i -> (i + 1) * ps <= len io -> getN (snd (m1 w)) (i - 1) = Some (Some p) -> page_consistent b k ps p ->
  (forall x q, In x (saves b k io2 m2 l2) -> getN (snd x) (i - 1) <> Some (Some q)) ->
  exists d', db_open io' k = DOk d' /\ (i < dh_next (db_header d') -> exists q, snd (load_page b d' i) = DOk q /\ page_kept p q).
Proof.
  intros b k io d l1 w l2 io1 m1 io2 m2 io' m' i p HB HO h ps m HR HM HR1 HR2 I1 I3 HG HC HN.
  destruct (c121_last b k io d _ io' m' HB HO HR HM) as (d' & D1 & _ & D3). exists d'. split; [exact D1|]. intro I2. specialize (D3 i I1 I2 I3). fold h ps m in D3.
  assert (last_page i (saves b k io m (l1 ++ (w, Step OSave) :: l2)) = Some p) as E; [|rewrite E in D3; exact (D3 HC)].
  clear D1 D3 HM HR. unfold last_page. generalize (@None page) as last. revert HR1. generalize m as mm. generalize io as ioo. clear HB HO I3. induction l1 as [|[v o] l1 IH]; intros io0 m0 HR1 last.
  - cbn [many] in HR1. injection HR1 as -> ->. cbn [app saves many] in *. destruct (do_step b k io1 (m1 w) (Step OSave)) as [[io3 x]|]; [|discriminate]. injection HR2 as -> E. rewrite E. cbn [fold_left]. rewrite HG.
    revert HN. generalize (saves b k io2 m2 l2) as xs. induction xs as [|y0 xs IHx]; intro HN; [reflexivity|]. cbn [fold_left].
    destruct (getN (snd y0) (i - 1)) as [[q|]|] eqn:G; [exfalso; exact (HN y0 q (or_introl eq_refl) G)| |]; apply IHx; intros y z Y; apply HN; now right.
  - cbn [app many saves] in *. destruct (do_step b k io0 (m0 v) o) as [[io3 x]|] eqn:E; [|discriminate]. rewrite fold_left_app. now apply IH.
Qed.
Print Assumptions c121_stays.

(** Two programs load page 1, the second one page 2 as well.  The first one counts up the sequence number in the header, gives the keys other numbers and saves; the second one, which has the
    old page and the old header, renames a key in page 1 and saves: the new numbers and the new sequence number are lost. *)
Definition c121_next (h : dbhdr) : dbhdr := mk_dbhdr (dh_page_size h) (dh_num h) (dh_next h) (dh_unknown h) (dh_seq h + 1) (dh_tables h).
Definition c121_steps : list (N * step) :=
  [(1, Step (OLoad 1)); (2, Step (OLoad 1)); (2, Step (OLoad 2)); (1, SHeader c121_next); (1, Step (OChange 1 c120_change)); (1, Step OSave); (2, Step (OChange 1 (assign_page c78_rename 0)));
   (2, Step OSave)].
Definition c121_memory : N -> memory := fun _ => (c79_hdr, [None; None; None]).
Lemma c121_inside : page_inside Debug DbPlain 198 (assign_page c78_rename 0 c75_page) /\ page_inside Debug DbPlain 198 c75_page.
Proof.
  split.
  - split; [repeat split; cbn; auto 20|]. cbn [assign_page c75_page pg_content c18_content dc_header dc_groups dc_rows].
    split; [lia|]. split; [repeat constructor|]. split; [repeat constructor|]. split; [vm_compute; discriminate|].
    constructor; [|constructor; [|constructor]]; (exists 12; split; [|vm_compute; discriminate]; intros pos l r' p E; cbn in E; injection E as <- _ _; constructor; [|constructor]; unfold seg_end; cbn; lia).
  - split; [repeat split; cbn; auto 20|]. cbn [assign_page c75_page pg_content c18_content dc_header dc_groups dc_rows].
    split; [lia|]. split; [repeat constructor|]. split; [repeat constructor|]. split; [vm_compute; discriminate|].
    constructor; [|constructor; [|constructor]]; (exists 12; split; [|vm_compute; discriminate]; intros pos l r' p E; cbn in E; injection E as <- _ _; constructor; [|constructor]; unfold seg_end; cbn; lia).
Qed.
Example c121_example_hyp : bytes_ok c79_io /\ db_open c79_io DbPlain = DOk c79_open /\ many_fit Debug DbPlain 198 c79_io c121_memory c121_steps /\
  page_consistent Debug DbPlain 198 c75_page.
Proof.
  split; [apply c79_example_hyp|]. split; [vm_compute; reflexivity|]. split.
  - set (q1 := c120_change c75_page). set (q2 := assign_page c78_rename 0 c75_page). set (g := c121_next c79_hdr). unfold c121_steps. cbn [many_fit].
    set (l1 := put c121_memory 1 (c79_hdr, [Some c75_page; None; None])). set (l2 := put l1 2 (c79_hdr, [Some c75_page; None; None])). set (l3 := put l2 2 (c79_hdr, [Some c75_page; Some c75_page; None])).
    set (l4 := put l3 1 (g, [Some c75_page; None; None])). set (l5 := put l4 1 (g, [Some q1; None; None])).
    split; [discriminate|]. replace (do_step Debug DbPlain c79_io (c121_memory 1) (Step (OLoad 1))) with (Some (c79_io, (c79_hdr, [Some c75_page; None; None]))) by (vm_compute; reflexivity). fold l1.
    split; [discriminate|]. replace (do_step Debug DbPlain c79_io (l1 2) (Step (OLoad 1))) with (Some (c79_io, (c79_hdr, [Some c75_page; None; None]))) by (vm_compute; reflexivity). fold l2.
    split; [discriminate|]. replace (do_step Debug DbPlain c79_io (l2 2) (Step (OLoad 2))) with (Some (c79_io, (c79_hdr, [Some c75_page; Some c75_page; None]))) by (vm_compute; reflexivity). fold l3.
    split; [discriminate|]. replace (do_step Debug DbPlain c79_io (l3 1) (SHeader c121_next)) with (Some (c79_io, (g, [Some c75_page; None; @None page]))) by reflexivity. fold l4.
    split; [discriminate|]. replace (do_step Debug DbPlain c79_io (l4 1) (Step (OChange 1 c120_change))) with (Some (c79_io, (g, [Some q1; None; @None page]))) by reflexivity. fold l5.
    assert (dbhdr_ok DbPlain c79_hdr) as HK.
    { assert (exists z, rd_dbhdr DbPlain c79_io 0 = Ok (c79_hdr, z)) as [z E] by (eexists; vm_compute; reflexivity). apply dbhdr_rw in E as [E _]; [exact E|apply c79_example_hyp]. }
    split. { intros _. split; [|split; [|split; [vm_compute; discriminate|reflexivity]]].
      - intros j p G. assert (In (Some p) [Some q1; None; None]) as X by (apply in_getN; eauto). change (dh_page_size _) with 198. destruct X as [[= <-]|[X|[X|[]]]]; try discriminate. exact c120_inside.
      - destruct HK as (K1 & K2 & K3 & K4 & K5 & K6 & K7). repeat split; try assumption. }
    destruct (do_step Debug DbPlain c79_io (l5 1) (Step OSave)) as [[io1 p1]|] eqn:E; [|exact I]. apply step_file in E as [(_ & -> & _)|[_ []]].
    split; [discriminate|].
    replace (do_step Debug DbPlain io1 (put l5 1 (l5 1) 2) (Step (OChange 1 (assign_page c78_rename 0)))) with (Some (io1, (c79_hdr, [Some q2; Some c75_page; @None page]))) by reflexivity.
    split. { intros _. split; [|split; [exact HK|split; [vm_compute; discriminate|reflexivity]]].
      intros j p G. assert (In (Some p) [Some q2; Some c75_page; None]) as X by (apply in_getN; eauto). change (dh_page_size _) with 198. destruct X as [[= <-]|[[= <-]|[X|[]]]]; try discriminate; apply c121_inside. }
    destruct (do_step _ _ _ _ _) as [[? ?]|]; exact I.
  - apply grow_consistent. exists c18_header, c18_content. split; [easy|exact c19_example_ok].
Qed.
Example c121_example : exists io' m', many Debug DbPlain c79_io c121_memory c121_steps = Some (io', m') /\
  let l := saves Debug DbPlain c79_io c121_memory c121_steps in
  map fst l = [c121_next c79_hdr; c79_hdr] /\ last_header c79_hdr l = c79_hdr /\ last_page 1 l = Some (assign_page c78_rename 0 c75_page) /\ last_page 2 l = Some c75_page /\ last_page 3 l = None /\
  c120_rows io' 1 = revised c78_rename 0 (map snd c18_rows) /\ c120_rows io' 2 = map snd c18_rows.
Proof. eexists _, _. split; [vm_compute; reflexivity|]. repeat split; vm_compute; reflexivity. Qed.
