(** * Property C120: two programs that work on one file at the same time *)
From Coq Require Import NArith ZArith List Bool Lia.
From Coq Require Import ZifyBool ZifyNat ZifyN.
From Verif Require Import Base BaseFacts Segs Str StrFacts StrGood Schema SchemaFacts Oa OaFacts Rows RowFacts Page PageFacts PageRw Alloc AllocFacts Db DbFacts DbFlush Revise Cut Confine Window Conc PropAlloc PropSession PropRevise PropCut.
Import ListNotations.
Open Scope N_scope.

(** Two programs open the same file and then load pages, change what they have loaded and save, as often as they like and in any order; they have no page in common.  Then each of them runs
    as if the other were not there, and the file holds, in the pages of each program, byte for byte what this program alone would have left there, and elsewhere what it held before. *)
Theorem c120_together : forall b k io d l ioa pa iob pb, db_open io k = DOk d -> let h := db_header d in let ps := dh_page_size h in
  28 + 16 * len (dh_tables h) <= ps -> ps <= len io ->
  alone b k h io (db_pages d) (steps_of true l) = Some (ioa, pa) -> alone b k h io (db_pages d) (steps_of false l) = Some (iob, pb) ->
  careful b k h io (db_pages d) (steps_of true l) -> careful b k h io (db_pages d) (steps_of false l) ->
  (forall i, In i (pages_of (steps_of true l)) \/ In i (pages_of (steps_of false l)) -> 1 <= i /\ (i + 1) * ps <= len io) ->
  (forall i, In i (pages_of (steps_of true l)) -> ~ In i (pages_of (steps_of false l))) ->
  exists io', both b k h io (db_pages d) (db_pages d) l = Some (io', pa, pb) /\ len io' = len io /\
    (forall x, ps <= x -> x < len io ->
      (In (x / ps) (pages_of (steps_of true l)) -> getN io' x = getN ioa x) /\ (In (x / ps) (pages_of (steps_of false l)) -> getN io' x = getN iob x) /\
      (~ In (x / ps) (pages_of (steps_of true l)) -> ~ In (x / ps) (pages_of (steps_of false l)) -> getN io' x = getN io x)) /\
    (In OSave (map snd l) -> has io' 0 (dbhdr_enc h ++ zeros (ps - len (dbhdr_enc h)))) /\ (~ In OSave (map snd l) -> io' = io).
Proof.
  intros b k io d l ioa pa iob pb HO h ps HF HP RA RB CA CB HI HD. set (A := pages_of (steps_of true l)) in *. set (B := pages_of (steps_of false l)) in *.
  assert (forall S, loaded_in (db_pages d) S) as HN.
  { unfold db_open in HO. destruct (rd_dbhdr k io 0) as [[h0 z]| |]; try discriminate. injection HO as <-. cbn [db_pages]. intros S j p G. assert (In (Some p) (repeat (@None page) (N.to_nat (dh_next h0 - 1)))) as G2 by (apply in_getN; eauto). apply repeat_spec in G2. discriminate. }
  destruct (both_beside b k h A B io HF HP (fun i H => HI i (or_introl H)) (fun i H => HI i (or_intror H)) HD l io io io (db_pages d) (db_pages d) ioa pa iob pb) as (io' & R1 & R2 & R3); try assumption.
  { now repeat split. }
  { easy. }
  { easy. }
  exists io'. destruct R2 as (L & LA & LB & GA & GB & _ & _ & HX). split; [exact R1|]. split; [exact L|]. split; [|split].
  - intros x X1 X2. split; [|split].
    + intro X3. apply GA; [exact X1|now rewrite L|exact X3].
    + intro X3. apply GB; [exact X1|now rewrite L|exact X3].
    + now apply HX.
  - intro HS. replace (existsb _ l) with true in R3; [exact R3|]. symmetry. apply existsb_exists. apply in_map_iff in HS as (x & E & Hx). exists x. now rewrite E.
  - intro HS. destruct (existsb _ l) eqn:E in R3; [|exact R3]. apply existsb_exists in E as (x & Hx & E). destruct x as [c o]. cbn [snd] in E. destruct o; try discriminate. exfalso. apply HS. apply in_map_iff. now exists (c, OSave).
Qed.
Print Assumptions c120_together.
(** So the order in which the steps of the two happen does not show in the file. *)
Theorem c120_order : forall b k io d l l' ioa pa iob pb, db_open io k = DOk d -> let h := db_header d in let ps := dh_page_size h in
  28 + 16 * len (dh_tables h) <= ps -> ps <= len io ->
  alone b k h io (db_pages d) (steps_of true l) = Some (ioa, pa) -> alone b k h io (db_pages d) (steps_of false l) = Some (iob, pb) ->
  careful b k h io (db_pages d) (steps_of true l) -> careful b k h io (db_pages d) (steps_of false l) ->
  (forall i, In i (pages_of (steps_of true l)) \/ In i (pages_of (steps_of false l)) -> 1 <= i /\ (i + 1) * ps <= len io) ->
  (forall i, In i (pages_of (steps_of true l)) -> ~ In i (pages_of (steps_of false l))) ->
  steps_of true l' = steps_of true l -> steps_of false l' = steps_of false l ->
  exists io', both b k h io (db_pages d) (db_pages d) l = Some (io', pa, pb) /\ both b k h io (db_pages d) (db_pages d) l' = Some (io', pa, pb).
Proof.
  intros b k io d l l' ioa pa iob pb HO h ps HF HP RA RB CA CB HI HD EA EB.
  destruct (c120_together b k io d l ioa pa iob pb HO HF HP RA RB CA CB HI HD) as (io1 & R1 & L1 & X1 & S1 & N1).
  destruct (c120_together b k io d l' ioa pa iob pb HO HF HP) as (io2 & R2 & L2 & X2 & S2 & N2); try rewrite EA; try rewrite EB; try assumption. rewrite EA, EB in X2. fold h ps in X1, S1, R1, X2, S2, R2.
  exists io1. split; [exact R1|]. rewrite R2. assert (io2 = io1) as ->; [|reflexivity].
  assert (In OSave (map snd l) <-> In OSave (map snd l')) as HS.
  { assert (forall l, In OSave (map snd l) <-> In OSave (steps_of true l) \/ In OSave (steps_of false l)) as HX; [|rewrite (HX l), (HX l'), EA, EB; reflexivity].
    clear. intro l. unfold steps_of. rewrite !in_map_iff. split.
    - intros ([[|] o] & E & H); [left|right]; eexists; (split; [exact E|]); now apply filter_In.
    - intros [(x & E & H)|(x & E & H)]; apply filter_In in H as [H _]; eauto. }
  apply list_ext. intro x. destruct (N.lt_ge_cases x (len io)) as [XL|XL]; [|rewrite !(proj2 (getN_None _ _)) by lia; reflexivity].
  destruct (N.lt_ge_cases x ps) as [XP|XP].
  - destruct (in_dec (fun a b : bool => Bool.bool_dec a b) true (map (fun o => match o with OSave => true | _ => false end) (map snd l))) as [HY|HY].
    + assert (In OSave (map snd l)) as HZ by (apply in_map_iff in HY as (o & E & HY); now destruct o). specialize (S1 HZ). specialize (S2 (proj1 HS HZ)). apply has_get in S1 as [_ S1]. apply has_get in S2 as [_ S2].
      assert (x < len (dbhdr_enc h ++ zeros (ps - len (dbhdr_enc h)))) as XX by (rewrite len_app, len_zeros; lia). specialize (S1 x XX). specialize (S2 x XX). rewrite N.add_0_l in *. congruence.
    + assert (~ In OSave (map snd l)) as HZ by (intro HZ; apply HY; apply in_map_iff; now exists OSave). rewrite (N1 HZ), N2; [reflexivity|]. intro HZ'. now apply HZ, HS.
  - specialize (X1 x XP XL) as (A1 & A2 & A3). specialize (X2 x XP XL) as (B1 & B2 & B3).
    destruct (in_dec N.eq_dec (x / ps) (pages_of (steps_of true l))) as [I1|I1]; [now rewrite A1, B1|]. destruct (in_dec N.eq_dec (x / ps) (pages_of (steps_of false l))) as [I2|I2]; [now rewrite A2, B2|]. now rewrite A3, B3.
Qed.
Print Assumptions c120_order.
(** In particular it is the file that the programs leave if the second one does all its work after the first one. *)
Theorem c120_serial : forall b k io d l ioa pa iob pb, db_open io k = DOk d -> let h := db_header d in let ps := dh_page_size h in
  28 + 16 * len (dh_tables h) <= ps -> ps <= len io ->
  alone b k h io (db_pages d) (steps_of true l) = Some (ioa, pa) -> alone b k h io (db_pages d) (steps_of false l) = Some (iob, pb) ->
  careful b k h io (db_pages d) (steps_of true l) -> careful b k h io (db_pages d) (steps_of false l) ->
  (forall i, In i (pages_of (steps_of true l)) \/ In i (pages_of (steps_of false l)) -> 1 <= i /\ (i + 1) * ps <= len io) ->
  (forall i, In i (pages_of (steps_of true l)) -> ~ In i (pages_of (steps_of false l))) ->
  exists io', both b k h io (db_pages d) (db_pages d) l = Some (io', pa, pb) /\ alone b k h ioa (db_pages d) (steps_of false l) = Some (io', pb).
Proof.
  intros b k io d l ioa pa iob pb HO h ps HF HP RA RB CA CB HI HD.
  assert (forall w ops, steps_of w (map (pair w) ops) = ops) as E1.
  { intros w ops. unfold steps_of. induction ops as [|o ops IH]; [reflexivity|]. cbn [map filter fst]. rewrite Bool.eqb_reflx. cbn [map snd]. now rewrite IH. }
  assert (forall w ops, steps_of w (map (pair (negb w)) ops) = []) as E2.
  { intros w ops. unfold steps_of. induction ops as [|o ops IH]; [reflexivity|]. cbn [map filter fst]. now destruct w. }
  assert (forall w l1 l2, steps_of w (l1 ++ l2) = steps_of w l1 ++ steps_of w l2) as E3 by (intros; unfold steps_of; now rewrite filter_app, map_app).
  destruct (c120_order b k io d l (map (pair true) (steps_of true l) ++ map (pair false) (steps_of false l)) ioa pa iob pb HO HF HP RA RB CA CB HI HD) as (io' & R1 & R2).
  { rewrite E3, E1. rewrite (E2 true). apply app_nil_r. }
  { rewrite E3, E1. now rewrite (E2 false). }
  exists io'. split; [exact R1|]. exact (both_serial b k h _ _ _ _ _ _ _ _ _ _ R2 RA).
Qed.
Print Assumptions c120_serial.
(** A page that can be read as a file of its own is read the same whatever happens to other pages, so programs may load it. *)
Theorem c120_page : forall b k h io i, len io < 2 ^ 64 -> whole_page b k (dh_page_size h) io i -> stands_alone b k h io i.
Proof. exact whole_alone. Qed.
Print Assumptions c120_page.

(** Two programs give the keys in page 1 and the keys in page 2 other numbers; both save, the first one after the second one has loaded its page. *)
Definition c120_change : page -> page := assign_page c78_number_keys 0.
Definition c120_steps : list (bool * op) := [(true, OLoad 1); (false, OLoad 2); (true, OChange 1 c120_change); (true, OSave); (false, OChange 2 c120_change); (false, OSave)].
Lemma c120_inside : page_inside Debug DbPlain 198 (c120_change c75_page).
Proof.
  split; [repeat split; cbn; auto 20|]. cbn [c120_change assign_page c75_page pg_content c18_content dc_header dc_groups dc_rows].
  split; [lia|]. split; [repeat constructor|]. split; [repeat constructor|]. split; [vm_compute; discriminate|].
  constructor; [|constructor; [|constructor]].
  - exists 12. split; [|vm_compute; discriminate]. intros pos l r' p E. cbn in E. injection E as <- _ _. constructor; [|constructor]. unfold seg_end. cbn. lia.
  - exists 12. split; [|vm_compute; discriminate]. intros pos l r' p E. cbn in E. injection E as <- _ _. constructor; [|constructor]. unfold seg_end. cbn. lia.
Qed.
Lemma c120_whole i : i = 1 \/ i = 2 -> whole_page Debug DbPlain 198 c79_io i.
Proof.
  intros [->| ->].
  - exists (takeN 198 (dropN 198 c79_io)), c75_page, 198. split; [vm_compute; reflexivity|]. split; [apply hasb_has; vm_compute; reflexivity|]. vm_compute. reflexivity.
  - exists (takeN 198 (dropN 396 c79_io)), c75_page, 198. split; [vm_compute; reflexivity|]. split; [apply hasb_has; vm_compute; reflexivity|]. vm_compute. reflexivity.
Qed.
Lemma c120_careful i : i = 1 \/ i = 2 -> careful Debug DbPlain c79_hdr c79_io [None; None; None] [OLoad i; OChange i c120_change; OSave].
Proof.
  intro Hi. set (pg := fun x => if i =? 1 then [Some x; None; None] else [None; Some x; @None page]).
  assert (do_op Debug DbPlain c79_hdr c79_io [None; None; None] (OLoad i) = Some (c79_io, pg c75_page)) as E1 by (destruct Hi as [->| ->]; vm_compute; reflexivity).
  assert (do_op Debug DbPlain c79_hdr c79_io (pg c75_page) (OChange i c120_change) = Some (c79_io, pg (c120_change c75_page))) as E2 by (destruct Hi as [->| ->]; reflexivity).
  cbn [careful]. rewrite E1. split; [|rewrite E2; split; [exact I|split]].
  - intros _. apply c120_page; [vm_compute; reflexivity|]. now apply c120_whole.
  - intros j p G. cbn [db_pages db_kind db_header] in *. change (dh_page_size c79_hdr) with 198. assert (p = c120_change c75_page) as ->; [|exact c120_inside].
    assert (In (Some p) (pg (c120_change c75_page))) as G2 by (apply in_getN; eauto). clear -G2. unfold pg in G2. destruct (i =? 1); cbn [In] in G2; intuition congruence.
  - destruct (do_op Debug DbPlain c79_hdr c79_io (pg (c120_change c75_page)) OSave) as [[? ?]|]; exact I.
Qed.
Example c120_example_hyp : db_open c79_io DbPlain = DOk c79_open /\ steps_of true c120_steps = [OLoad 1; OChange 1 c120_change; OSave] /\ steps_of false c120_steps = [OLoad 2; OChange 2 c120_change; OSave] /\
  careful Debug DbPlain c79_hdr c79_io [None; None; None] (steps_of true c120_steps) /\ careful Debug DbPlain c79_hdr c79_io [None; None; None] (steps_of false c120_steps) /\
  (exists ioa pa, alone Debug DbPlain c79_hdr c79_io [None; None; None] (steps_of true c120_steps) = Some (ioa, pa)) /\
  (exists iob pb, alone Debug DbPlain c79_hdr c79_io [None; None; None] (steps_of false c120_steps) = Some (iob, pb)).
Proof.
  split; [vm_compute; reflexivity|]. split; [reflexivity|]. split; [reflexivity|]. split; [apply c120_careful; now left|]. split; [apply c120_careful; now right|].
  split; eexists _, _; vm_compute; reflexivity.
Qed.
Definition c120_rows (io : list N) (i : N) : list row := match db_open io DbPlain with DOk d => match snd (load_page Debug d i) with DOk p => rows_of_page p | _ => [] end | _ => [] end.
Example c120_example : exists io' pa pb, both Debug DbPlain c79_hdr c79_io [None; None; None] [None; None; None] c120_steps = Some (io', pa, pb) /\
  c120_rows io' 1 = revised c78_number_keys 0 (map snd c18_rows) /\ c120_rows io' 2 = revised c78_number_keys 0 (map snd c18_rows) /\ c120_rows io' 3 = map snd c18_rows.
Proof. eexists _, _, _. split; [vm_compute; reflexivity|]. repeat split; vm_compute; reflexivity. Qed.
(** It is essential that they have no page in common, even if one of them changes nothing: a page that was only looked at is written, too, when the program saves, and brings back the old rows. *)
Theorem c120_shared_refuted : exists io d f io1 io' pa pb, db_open io DbPlain = DOk d /\
  alone Debug DbPlain (db_header d) io (db_pages d) [OLoad 1; OChange 1 f; OSave] = Some (io1, pa) /\
  both Debug DbPlain (db_header d) io (db_pages d) (db_pages d) [(false, OLoad 1); (true, OLoad 1); (true, OChange 1 f); (true, OSave); (false, OSave)] = Some (io', pa, pb) /\
  c120_rows io1 1 <> c120_rows io 1 /\ c120_rows io' 1 = c120_rows io 1.
Proof.
  exists c79_io, c79_open, c120_change. eexists _, _, _, _. split; [vm_compute; reflexivity|]. split; [vm_compute; reflexivity|]. split; [vm_compute; reflexivity|].
  split; [vm_compute; discriminate|vm_compute; reflexivity].
Qed.
Print Assumptions c120_shared_refuted.
