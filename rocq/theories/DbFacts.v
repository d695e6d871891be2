(** * Loading pages and iterating *)
From Coq Require Import NArith ZArith List Bool Lia Sorted.
From Coq Require Import ZifyBool ZifyNat ZifyN.
From Verif Require Import Base BaseFacts Segs Str Schema SchemaFacts StrGood Oa OaFacts Rows RowFacts RowSpec EnumFacts
  Page BitFacts PageFacts PageRw PageSpec AllocFacts Db.
Import ListNotations.
Ltac Zify.zify_post_hook ::= Z.div_mod_to_equations.
Open Scope N_scope.

(** ** Finding tables *)
Lemma ptype_eqb_eq x y : ptype_eqb x y = true <-> x = y.
Proof.
  destruct x as [k|c], y as [k'|c']; cbn [ptype_eqb]; try easy.
  - destruct (rkind_eq_dec k k'); split; congruence.
  - rewrite N.eqb_eq. split; congruence.
Qed.
Lemma find_from_some t : forall l s i x, find_from s t l = Some (i, x) <->
  s <= i /\ getN l (i - s) = Some x /\ tb_type x = t /\ forall j y, j < i - s -> getN l j = Some y -> tb_type y <> t.
Proof.
  induction l as [|y l IH]; intros s i x; cbn [find_from].
  - split; [easy|]. intros (_ & H & _). rewrite (proj2 (getN_None _ _)) in H by (cbn; lia). easy.
  - destruct (ptype_eqb (tb_type y) t) eqn:E.
    + apply ptype_eqb_eq in E. split.
      * intros [= -> ->]. rewrite N.sub_diag, getN_0. repeat split; try easy; lia.
      * intros (H1 & H2 & H3 & H4). destruct (N.eq_dec i s) as [->|NE].
        -- rewrite N.sub_diag, getN_0 in H2. congruence.
        -- exfalso. apply (H4 0 y); [lia|apply getN_0|easy].
    + rewrite IH. assert (tb_type y <> t) as NE by (intro X; apply ptype_eqb_eq in X; congruence). split.
      * intros (H1 & H2 & H3 & H4). split; [lia|]. rewrite getN_cons. replace (i - s =? 0) with false by lia. split; [now replace (i - s - 1) with (i - (s + 1)) by lia|].
        split; [easy|]. intros j z Hj HG. rewrite getN_cons in HG. destruct (j =? 0) eqn:EJ; [congruence|]. apply (H4 (j - 1)); [lia|easy].
      * intros (H1 & H2 & H3 & H4). rewrite getN_cons in H2. destruct (i - s =? 0) eqn:EI; [congruence|]. split; [lia|].
        replace (i - (s + 1)) with (i - s - 1) by lia. split; [easy|]. split; [easy|]. intros j z Hj HG. apply (H4 (j + 1) z); [lia|].
        rewrite getN_cons. replace (j + 1 =? 0) with false by lia. now replace (j + 1 - 1) with j by lia.
Qed.
Lemma find_from_none t : forall l s, find_from s t l = None <-> forall x, In x l -> tb_type x <> t.
Proof.
  induction l as [|y l IH]; intro s; cbn [find_from]; [split; [easy|reflexivity]|]. destruct (ptype_eqb (tb_type y) t) eqn:E.
  - apply ptype_eqb_eq in E. split; [easy|]. intro H. exfalso. apply (H y); [now left|easy].
  - rewrite IH. assert (tb_type y <> t) as NE by (intro X; apply ptype_eqb_eq in X; congruence). split.
    + intros H x [<-|HX]; auto.
    + intros H x HX. apply H. now right.
Qed.
Lemma find_table_some t h i x : find_table t h = Some (i, x) <->
  getN (dh_tables h) i = Some x /\ tb_type x = t /\ forall j y, j < i -> getN (dh_tables h) j = Some y -> tb_type y <> t.
Proof. unfold find_table. rewrite find_from_some, N.sub_0_r. intuition lia. Qed.
Lemma find_table_none t h : find_table t h = None <-> forall x, In x (dh_tables h) -> tb_type x <> t.
Proof. apply find_from_none. Qed.

(** ** Pages *)

(** Page [i] of the database is [p]: in memory or else in the file. *)
Definition page_of (b : build) (d : database) (i : N) (p : page) : Prop :=
  1 <= i /\ (getN (db_pages d) (i - 1) = Some (Some p) \/ getN (db_pages d) (i - 1) = Some None /\ read_page b d i = DOk p).

Lemma page_of_fun b d i p q : page_of b d i p -> page_of b d i q -> p = q.
Proof. intros [_ [H|[H H']]] [_ [G|[G G']]]; congruence. Qed.
Lemma page_of_range b d i p : page_of b d i p -> 1 <= i <= len (db_pages d).
Proof. intros [H1 H2]. split; [easy|]. destruct H2 as [H2|[H2 _]]; apply getN_Some_lt in H2; lia. Qed.

(** What loading a page does to the database. *)
Definition loaded (d d' : database) (i : N) (p : page) : Prop :=
  db_io d' = db_io d /\ db_kind d' = db_kind d /\ db_header d' = db_header d /\ len (db_pages d') = len (db_pages d) /\
  forall k, getN (db_pages d') k = if k =? i - 1 then Some (Some p) else getN (db_pages d) k.

Lemma with_pages_loaded d k p : k < len (db_pages d) ->
  loaded d (with_pages d (set_nth (N.to_nat k) (Some p) (db_pages d))) (k + 1) p.
Proof.
  intro H. unfold loaded, with_pages. cbn [db_io db_kind db_header db_pages]. repeat (split; [easy|]). split; [apply len_set_nth|].
  intro j. rewrite getN_set_nth by lia. now replace (k + 1 - 1) with k by lia.
Qed.
Lemma same_loaded d i p : 1 <= i -> getN (db_pages d) (i - 1) = Some (Some p) -> loaded d d i p.
Proof.
  intros H1 H2. repeat (split; [easy|]). intro k. destruct (k =? i - 1) eqn:E; [|easy]. now replace k with (i - 1) by lia.
Qed.
Lemma load_entry_ok b d k d' p : load_entry b d k (k + 1) = (d', DOk p) <-> page_of b d (k + 1) p /\ d' = fst (load_entry b d k (k + 1)).
Proof.
  unfold load_entry, page_of. replace (k + 1 - 1) with k by lia. destruct (getN (db_pages d) k) as [[q|]|] eqn:E.
  - cbn [fst]. split; [intros [= <- <-]; repeat split; [lia|now left]|]. intros ([_ [H|[H _]]] & ->); congruence.
  - destruct (read_page b d (k + 1)) as [q|e|] eqn:ER; cbn [fst].
    + split; [intros [= <- <-]; repeat split; [lia|now right]|]. intros ([_ [H|[_ H]]] & ->); congruence.
    + split; [easy|]. intros ([_ [H|[_ H]]] & _); congruence.
    + split; [easy|]. intros ([_ [H|[_ H]]] & _); congruence.
  - split; [easy|]. intros ([_ [H|[H _]]] & _); congruence.
Qed.
Lemma load_entry_loaded b d k d' p : load_entry b d k (k + 1) = (d', DOk p) -> loaded d d' (k + 1) p.
Proof.
  unfold load_entry. destruct (getN (db_pages d) k) as [[q|]|] eqn:E; [|destruct (read_page b d (k + 1)) as [q|e|] eqn:ER|]; try easy.
  - intros [= <- <-]. apply same_loaded; [lia|]. now replace (k + 1 - 1) with k by lia.
  - intros [= <- <-]. apply with_pages_loaded. now apply getN_Some_lt in E.
Qed.
Lemma load_entry_fail b d k d' r : load_entry b d k (k + 1) = (d', r) -> (forall p, r <> DOk p) -> d' = d.
Proof.
  unfold load_entry. destruct (getN (db_pages d) k) as [[q|]|]; [|destruct (read_page b d (k + 1)) as [q|e|]|]; intros [= <- <-] H; try easy.
  now destruct (H q).
Qed.
Lemma read_page_loaded b d d' i p j : loaded d d' i p -> read_page b d' j = read_page b d j.
Proof. intros (H1 & H2 & H3 & _). unfold read_page. now rewrite H1, H2, H3. Qed.
Lemma page_of_loaded b d d' i p j q : loaded d d' i p -> page_of b d i p -> (page_of b d' j q <-> page_of b d j q).
Proof.
  intros HL HP. pose proof (read_page_loaded b d d' i p j HL) as HR. destruct HL as (_ & _ & _ & _ & HG). unfold page_of. rewrite HR, HG.
  destruct (j - 1 =? i - 1) eqn:E; [|easy]. split.
  - intros (H1 & [H|[H _]]); [|easy]. injection H as ->. assert (j = i) as -> by (destruct HP; lia). exact HP.
  - intros H. pose proof H as [H1 _]. assert (j = i) as -> by (destruct HP; lia). pose proof (page_of_fun _ _ _ _ _ H HP) as ->. split; [easy|now left].
Qed.

(** ** [load_page] *)
Lemma load_page_present b d i : 1 <= i -> i <= len (db_pages d) -> 
  snd (load_page b d i) = match getN (db_pages d) (i - 1) with Some (Some p) => DOk p | _ => read_page b d i end.
Proof.
  intros H1 H2. unfold load_page. rewrite wsub_ok by easy. replace (i - 1 <? len (db_pages d)) with true by lia.
  unfold load_entry. destruct (getN_lt_Some (db_pages d) (i - 1)) as [e E]; [lia|]. rewrite E. destruct e as [p|]; [easy|]. now destruct (read_page b d i).
Qed.
Lemma load_page_zero b d : len (db_pages d) < 2 ^ 32 ->
  load_page b d 0 = (d, match b with Debug => DPanic | Release => DErr (DPageNotPresent 0) end).
Proof.
  intro HP. unfold load_page. destruct b; [reflexivity|].
  assert (wsub Release 64 0 1 = Ok 18446744073709551615) as -> by (vm_compute; reflexivity).
  destruct (18446744073709551615 <? len (db_pages d)) eqn:E; [|reflexivity]. exfalso. apply N.ltb_lt in E.
  assert (2 ^ 32 = 4294967296) as X by reflexivity. rewrite X in HP. lia.
Qed.
Lemma load_page_ok b d i p : i < 2 ^ 32 -> len (db_pages d) < 2 ^ 32 -> snd (load_page b d i) = DOk p <-> page_of b d i p.
Proof.
  intros HI HP. destruct (N.eq_dec i 0) as [->|NZ].
  { split; [|intros [H _]; lia]. rewrite load_page_zero by easy. now destruct b. }
  destruct (N.le_gt_cases i (len (db_pages d))) as [HL|HL].
  - rewrite load_page_present by lia. destruct (getN_lt_Some (db_pages d) (i - 1)) as [e E]; [lia|]. unfold page_of. rewrite E. destruct e as [q|].
    + split; [intros [= ->]; split; [lia|now left]|]. intros (_ & [H|[H _]]); congruence.
    + split; [intro H; split; [lia|now right]|]. intros (_ & [H|[_ H]]); congruence.
  - split; [|intro H; apply page_of_range in H; lia]. unfold load_page. rewrite wsub_ok by lia. now replace (i - 1 <? len (db_pages d)) with false by lia.
Qed.
Lemma load_page_loaded b d i p d' : 1 <= i -> load_page b d i = (d', DOk p) -> loaded d d' i p.
Proof.
  intros H1 H. unfold load_page in H. rewrite wsub_ok in H by easy. destruct (i - 1 <? len (db_pages d)); [|easy].
  rewrite <- (N.sub_add 1 i) in H at 2 by easy. apply load_entry_loaded in H. now rewrite N.sub_add in H by easy.
Qed.
Lemma load_page_again b d i p d' : 1 <= i -> load_page b d i = (d', DOk p) -> load_page b d' i = (d', DOk p).
Proof.
  intros H1 H. pose proof (load_page_loaded b d i p d' H1 H) as (_ & _ & _ & HL & HG). unfold load_page in *. rewrite wsub_ok in * by easy. rewrite HL.
  destruct (i - 1 <? len (db_pages d)); [|easy]. unfold load_entry. rewrite HG, N.eqb_refl. easy.
Qed.
Lemma load_page_fail b d i d' r : 1 <= i -> load_page b d i = (d', r) -> (forall p, r <> DOk p) -> d' = d.
Proof.
  intros H1 H HR. unfold load_page in H. rewrite wsub_ok in H by easy. destruct (i - 1 <? len (db_pages d)); [|congruence].
  rewrite <- (N.sub_add 1 i) in H at 2 by easy. now apply load_entry_fail in H.
Qed.
Lemma load_page_absent b d i : len (db_pages d) < i -> load_page b d i = (d, DErr (DPageNotPresent i)).
Proof. intro H. unfold load_page. rewrite wsub_ok by lia. now replace (i - 1 <? len (db_pages d)) with false by lia. Qed.
Lemma read_page_eq b d i : i < 2 ^ 32 -> dh_page_size (db_header d) < 2 ^ 32 ->
  read_page b d i = match rd_page b (rd_dstr b) (dh_page_size (db_header d)) (db_kind d) (db_io d) (i * dh_page_size (db_header d)) with
                    | Ok (p, _) => DOk p | Err e => DErr (DParse e) | Panic => DPanic end.
Proof.
  intros H1 H2. unfold read_page, page_offset. rewrite wmul_ok; [reflexivity|]. change (2 ^ 64) with (2 ^ 32 * 2 ^ 32). apply N.mul_lt_mono; easy.
Qed.

(** ** The iterator *)
Definition it_inv (d : database) (it : piter) : Prop :=
  it_len it = 0 \/ it_base it + 1 = it_off it /\ it_base it + it_len it = len (db_pages d).
(** No page will ever be returned again. *)
Definition dead (it : piter) : Prop := exists i, it_next it = Some i /\ (i < it_off it \/ it_len it = 0).
Definition is_err {A} (r : dres A) : Prop := match r with DErr _ => True | _ => False end.

Lemma iter_of_inv d t : it_inv d (iter_of d t).
Proof. right. cbn. lia. Qed.

(** All outcomes of one call. *)
Lemma iter_next_cases b d it d1 it1 r : iter_next b d it = (d1, it1, r) ->
  (it_next it = None /\ d1 = d /\ it1 = it /\ r = DOk None) \/
  (exists i, it_next it = Some i /\ i < it_off it /\ d1 = d /\ it1 = it /\ r = DErr (DPageOrder i)) \/
  (exists i, it_next it = Some i /\ it_off it <= i /\ it_len it <= i - it_off it /\ d1 = d /\
     it1 = mk_piter (it_base it) 0 (it_off it) (it_next it) (it_last it) /\ r = DErr (DPageNotPresent i)) \/
  (exists i r1, it_next it = Some i /\ it_off it <= i /\ i - it_off it < it_len it /\
     load_entry b d (it_base it + (i - it_off it)) i = (d1, r1) /\
     it_base it1 = it_base it + (i - it_off it) + 1 /\ it_len it1 = it_len it - (i - it_off it) - 1 /\ it_off it1 = i + 1 /\ it_last it1 = it_last it /\
     match r1 with
     | DOk p => r = DOk (Some (i, p)) /\ it_next it1 = if i =? it_last it then None else Some (ph_next (pg_header p))
     | DErr e => r = DErr e /\ it_next it1 = Some i
     | DPanic => r = DPanic /\ it_next it1 = Some i
     end).
Proof.
  unfold iter_next. destruct (it_next it) as [i|] eqn:EN; [|intros [= <- <- <-]; now left].
  destruct (i <? it_off it) eqn:EO.
  { intros [= <- <- <-]. right. left. exists i. repeat split; try easy. lia. }
  destruct (it_len it <=? i - it_off it) eqn:EL.
  { intros [= <- <- <-]. right. right. left. exists i. repeat split; try easy; lia. }
  destruct (load_entry b d (it_base it + (i - it_off it)) i) as [d2 [p|e|]] eqn:EE; cbn [it_base it_len it_off];
    intros [= <- <- <-]; right; right; right; eexists i, _; (split; [reflexivity|]); (split; [lia|]); (split; [lia|]); (split; [exact EE|]);
    cbn [it_base it_len it_off it_last it_next]; repeat split.
Qed.
Lemma dead_next b d it : dead it -> exists d1 it1 e, iter_next b d it = (d1, it1, DErr e) /\ dead it1 /\ d1 = d.
Proof.
  intros (i & EN & H). unfold iter_next. rewrite EN. destruct (i <? it_off it) eqn:EO.
  - eexists _, _, _. split; [reflexivity|]. split; [|reflexivity]. exists i. split; [easy|]. left. lia.
  - destruct H as [H|H]; [lia|]. rewrite H. replace (0 <=? i - it_off it) with true by lia. eexists _, _, _. split; [reflexivity|]. split; [|reflexivity].
    exists i. cbn. split; [easy|now right].
Qed.
Lemma err_dead b d it d1 it1 r : iter_next b d it = (d1, it1, r) -> match r with DOk _ => False | _ => True end -> dead it1.
Proof.
  intros H HR. apply iter_next_cases in H as [(_ & _ & _ & ->)|[(i & E1 & E2 & -> & -> & ->)|[(i & E1 & E2 & E3 & -> & -> & ->)|(i & r1 & E1 & E2 & E3 & EL & _ & _ & E4 & _ & H)]]].
  - easy.
  - exists i. split; [easy|now left].
  - exists i. cbn. split; [easy|now right].
  - destruct r1 as [p|e|]; destruct H as [-> H]; [easy| |]; exists i; (split; [easy|left; lia]).
Qed.

(** A sequence of calls.  In between, the pages may be changed in any way. *)
Inductive trace (b : build) : database -> piter -> list (dres (option (N * page))) -> Prop :=
| trace_nil d it : trace b d it []
| trace_cons d it d1 it1 r d2 rs :
    iter_next b d it = (d1, it1, r) -> len (db_pages d2) = len (db_pages d1) -> trace b d2 it1 rs -> trace b d it (r :: rs).
Definition yields (rs : list (dres (option (N * page)))) : list N :=
  flat_map (fun r => match r with DOk (Some (i, _)) => [i] | _ => [] end) rs.

Lemma load_entry_len b d k i d1 r : load_entry b d k i = (d1, r) -> len (db_pages d1) = len (db_pages d).
Proof.
  unfold load_entry. destruct (getN (db_pages d) k) as [[q|]|]; [|destruct (read_page b d i) as [q|e|]|]; intros [= <- <-]; try easy. apply len_set_nth.
Qed.
Lemma iter_next_inv b d it d1 it1 r : it_inv d it -> iter_next b d it = (d1, it1, r) -> it_inv d1 it1 /\ len (db_pages d1) = len (db_pages d).
Proof.
  intros HI H. apply iter_next_cases in H as [(_ & -> & -> & ->)|[(i & E1 & E2 & -> & -> & ->)|[(i & E1 & E2 & E3 & -> & -> & ->)|(i & r1 & E1 & E2 & E3 & EL & B1 & B2 & E4 & _ & H)]]]; try easy.
  - split; [now left|easy].
  - apply load_entry_len in EL. split; [|easy]. unfold it_inv in *. rewrite EL. right. destruct HI as [HI|HI]; lia.
Qed.
Lemma trace_increasing b : forall rs d it, trace b d it rs -> it_inv d it ->
  Forall (fun i => it_off it <= i /\ i <= len (db_pages d)) (yields rs) /\ StronglySorted N.lt (yields rs).
Proof.
  induction rs as [|r rs IH]; intros d it HT HI; [split; constructor|]. inversion HT as [|? ? d1 it1 ? d2 ? HN HL HT2]; subst.
  pose proof (iter_next_inv b d it d1 it1 r HI HN) as [HI1 HL1].
  assert (it_inv d2 it1) as HI2 by (unfold it_inv in *; now rewrite HL).
  destruct (IH d2 it1 HT2 HI2) as [IH1 IH2]. rewrite HL, HL1 in IH1.
  apply iter_next_cases in HN as [(_ & -> & -> & ->)|[(i & E1 & E2 & -> & -> & ->)|[(i & E1 & E2 & E3 & -> & -> & ->)|(i & r1 & E1 & E2 & E3 & EL & B1 & B2 & E4 & _ & H)]]];
    cbn [yields flat_map app]; try (now split).
  assert (Forall (fun j => it_off it <= j /\ j <= len (db_pages d)) (flat_map (fun r => match r with DOk (Some (j, _)) => [j] | _ => [] end) rs)) as IH1'.
  { rewrite Forall_forall in *. intros j HJ. specialize (IH1 j HJ). lia. }
  destruct r1 as [p|e|]; destruct H as [-> H]; cbn [app]; try (now split).
  split.
  - constructor; [|easy]. destruct HI as [HI|HI]; lia.
  - constructor; [easy|]. rewrite Forall_forall in *. intros j HJ. specialize (IH1 j HJ). lia.
Qed.
Lemma trace_dead b : forall rs d it, trace b d it rs -> dead it -> Forall is_err rs.
Proof.
  induction rs as [|r rs IH]; intros d it HT HD; constructor; inversion HT as [|? ? d1 it1 ? d2 ? HN HL HT2]; subst;
    destruct (dead_next b d it HD) as (d1' & it1' & e & E & HD' & _); rewrite E in HN; injection HN as <- <- <-; [easy|]. now apply (IH d2 it1').
Qed.
Lemma trace_done b : forall rs d it, trace b d it rs -> it_next it = None -> Forall (fun r => r = DOk None) rs.
Proof.
  induction rs as [|r rs IH]; intros d it HT HD; constructor; inversion HT as [|? ? d1 it1 ? d2 ? HN HL HT2]; subst;
    unfold iter_next in HN; rewrite HD in HN; injection HN as <- <- <-; [easy|]. now apply (IH d2 it).
Qed.
Lemma yields_bound b rs d t : trace b d (iter_of d t) rs ->
  Forall (fun i => 1 <= i /\ i <= len (db_pages d)) (yields rs) /\ StronglySorted N.lt (yields rs) /\ len (yields rs) <= len (db_pages d).
Proof.
  intro HT. destruct (trace_increasing b rs d _ HT (iter_of_inv d t)) as [H1 H2]. cbn [iter_of it_off] in H1. split; [easy|]. split; [easy|].
  clear HT. assert (forall l lo hi, Forall (fun i => lo < i /\ i <= hi) l -> StronglySorted N.lt l -> len l <= hi - lo) as G.
  { induction l as [|x l IH]; intros lo hi HF HS; [cbn; lia|]. inversion HF as [|? ? Hx HF']; subst. inversion HS as [|? ? HS' HX]; subst. rewrite len_cons.
    assert (len l <= hi - x); [|lia]. apply IH; [|easy]. rewrite Forall_forall in *. intros y HY. specialize (HX y HY). specialize (HF' y HY). lia. }
  replace (len (db_pages d)) with (len (db_pages d) - 0) by lia. apply G; [|easy]. rewrite Forall_forall in *. intros x HX. specialize (H1 x HX). lia.
Qed.

(** ** Collecting *)

(** The pages reached by the links from page [i] on to [last]. *)
Inductive linked (b : build) (d : database) (last : N) : N -> list (N * page) -> Prop :=
| linked_last p : page_of b d last p -> linked b d last last [(last, p)]
| linked_step i p l : i <> last -> page_of b d i p -> i < ph_next (pg_header p) -> linked b d last (ph_next (pg_header p)) l ->
    linked b d last i ((i, p) :: l).

Lemma linked_loaded b d d' last j q : loaded d d' j q -> page_of b d j q -> forall l i, linked b d last i l <-> linked b d' last i l.
Proof.
  intros HL HP. assert (forall i p, page_of b d i p <-> page_of b d' i p) as E by (intros; symmetry; now apply (page_of_loaded b d d' j q)).
  intros l i. split; induction 1; constructor; try easy; now apply E.
Qed.
(** An iterator in the middle of a list of pages. *)
Definition live (d : database) (it : piter) : Prop := it_base it + 1 = it_off it /\ it_base it + it_len it = len (db_pages d).

Lemma iter_next_page b d it i p : live d it -> it_next it = Some i -> it_off it <= i -> page_of b d i p ->
  exists d1 it1, iter_next b d it = (d1, it1, DOk (Some (i, p))) /\ live d1 it1 /\ loaded d d1 i p /\
    it_off it1 = i + 1 /\ it_last it1 = it_last it /\ it_next it1 = if i =? it_last it then None else Some (ph_next (pg_header p)).
Proof.
  intros [HB HL] HN HO HP. pose proof (page_of_range b d i p HP) as HR. unfold iter_next. rewrite HN. replace (i <? it_off it) with false by lia.
  replace (it_len it <=? i - it_off it) with false by lia. replace (it_base it + (i - it_off it)) with (i - 1) by lia.
  assert (load_entry b d (i - 1) i = (fst (load_entry b d (i - 1) i), DOk p)) as E.
  { rewrite <- (N.sub_add 1 i) at 2 4 by lia. apply load_entry_ok. now rewrite N.sub_add by lia. }
  rewrite E. eexists _, _. split; [reflexivity|].
  assert (loaded d (fst (load_entry b d (i - 1) i)) i p) as HLD.
  { rewrite <- (N.sub_add 1 i) in E at 2 by lia. apply load_entry_loaded in E. rewrite !N.sub_add in E by lia. exact E. }
  split; [|split; [exact HLD|]]; [|cbn; repeat split].
  destruct HLD as (_ & _ & _ & HLL & _). unfold live. cbn [it_base it_len it_off]. rewrite HLL. lia.
Qed.
Lemma iter_next_page_inv b d it d1 it1 i p : live d it -> iter_next b d it = (d1, it1, DOk (Some (i, p))) ->
  it_next it = Some i /\ it_off it <= i /\ page_of b d i p.
Proof.
  intros [HB HL] H. apply iter_next_cases in H as [(_ & _ & _ & H)|[(j & _ & _ & _ & _ & H)|[(j & _ & _ & _ & _ & _ & H)|(j & r1 & E1 & E2 & E3 & EL & B1 & B2 & E4 & _ & H)]]]; try easy.
  destruct r1 as [q|e|]; destruct H as [H _]; try easy. injection H as <- <-. split; [easy|]. split; [easy|].
  replace (it_base it + (i - it_off it)) with (i - 1) in EL by lia. rewrite <- (N.sub_add 1 i) in EL at 2 by lia. apply load_entry_ok in EL as [EL _].
  now rewrite N.sub_add in EL by lia.
Qed.

Lemma linked_length b d last : forall l i, linked b d last i l -> i <= last /\ 1 <= i /\ len l + i <= last + 1 /\ last <= len (db_pages d).
Proof.
  intros l i H. induction H as [p HP|i p l NE HP HI HL IH].
  - apply page_of_range in HP. rewrite len_cons, len_nil. lia.
  - apply page_of_range in HP. rewrite len_cons. lia.
Qed.

(** All that collecting changes is that the visited pages are loaded. *)
Definition loaded_all (d d' : database) (l : list (N * page)) : Prop :=
  db_io d' = db_io d /\ db_kind d' = db_kind d /\ db_header d' = db_header d /\ len (db_pages d') = len (db_pages d) /\
  (forall i p, In (i, p) l -> getN (db_pages d') (i - 1) = Some (Some p)) /\
  (forall k, ~ In (k + 1) (map fst l) -> getN (db_pages d') k = getN (db_pages d) k).

Lemma linked_ge b d last : forall l i, linked b d last i l -> Forall (fun x => i <= fst x) l.
Proof.
  intros l i H. induction H as [p HP|i p l NE HP HI HL IH]; (apply Forall_cons; [cbn [fst]; lia|]); [apply Forall_nil|].
  rewrite Forall_forall in *. intros x HX. specialize (IH x HX). lia.
Qed.
Lemma collect_linked b last : forall l d it i n, linked b d last i l -> live d it -> it_next it = Some i -> it_off it <= i -> it_last it = last ->
  (length l < n)%nat -> exists d', collect_n b n d it = (d', Some (DOk l)) /\ loaded_all d d' l.
Proof.
  induction l as [|[j q] l IH]; intros d it i n HK HV HN HO HL HF; [inversion HK|].
  assert (j = i /\ page_of b d i q) as [-> HP] by (inversion HK; subst; now split).
  destruct n as [|n]; [easy|]. cbn [length] in HF. destruct (iter_next_page b d it i q HV HN HO HP) as (d1 & it1 & E & HV1 & HLD & HO1 & HL1 & HN1).
  cbn [collect_n]. rewrite E. pose proof HP as [HI1 _]. inversion HK as [p HP'|i' p l' NE HP' HI HK']; subst.
  - rewrite N.eqb_refl in HN1. destruct n as [|n]; [lia|]. cbn [collect_n]. unfold iter_next. rewrite HN1. exists d1. split; [easy|].
    destruct HLD as (A1 & A2 & A3 & A4 & A5). repeat (split; [easy|]). split.
    + intros j p [[= <- <-]|[]]. rewrite A5. now rewrite N.eqb_refl.
    + intros k HNI. rewrite A5. destruct (k =? it_last it - 1) eqn:EK; [|easy]. exfalso. apply HNI. left. cbn [fst]. lia.
  - replace (i =? it_last it) with false in HN1 by lia.
    destruct (IH d1 it1 (ph_next (pg_header q)) n) as (d2 & E2 & A); try easy; try lia.
    { now apply (linked_loaded b d d1 (it_last it) i q). }
    rewrite E2. exists d2. split; [easy|]. pose proof (linked_ge b d (it_last it) l _ HK') as HGE.
    destruct A as (A1 & A2 & A3 & A4 & A5 & A6), HLD as (B1 & B2 & B3 & B4 & B5).
    split; [congruence|]. split; [congruence|]. split; [congruence|]. split; [congruence|]. split.
    + intros j p [[= <- <-]|HIN]; [|now apply A5]. rewrite A6; [rewrite B5; now rewrite N.eqb_refl|]. rewrite N.sub_add by easy. intro X.
      apply in_map_iff in X as ([y w] & EY & HY). cbn [fst] in EY. subst. rewrite Forall_forall in HGE. specialize (HGE _ HY). cbn [fst] in HGE. lia.
    + intros k HNI. cbn [map fst] in HNI. rewrite A6 by (intro X; apply HNI; now right). rewrite B5. destruct (k =? i - 1) eqn:EK; [|easy].
      exfalso. apply HNI. left. lia.
Qed.
Lemma collect_linked_inv b : forall n d it l d' i, collect_n b n d it = (d', Some (DOk l)) -> live d it -> it_next it = Some i -> it_off it <= i ->
  linked b d (it_last it) i l.
Proof.
  induction n as [|n IH]; intros d it l d' i H HV HN HO; [easy|]. cbn [collect_n] in H.
  destruct (iter_next b d it) as [[d1 it1] [[[j p]|]|e|]] eqn:E; try easy.
  - pose proof (iter_next_page_inv b d it d1 it1 j p HV E) as (HN' & _ & HP). assert (j = i) as -> by congruence.
    destruct (iter_next_page b d it i p HV HN HO HP) as (d1' & it1' & E' & HV1 & HLD & HO1 & HL1 & HN1). rewrite E in E'. injection E' as <- <-.
    destruct (collect_n b n d1 it1) as [d2 [[l2|e|]|]] eqn:E2; try easy. injection H as <- <-.
    destruct (i =? it_last it) eqn:EI.
    + assert (i = it_last it) as -> by lia. destruct n as [|n]; [easy|]. cbn [collect_n] in E2. unfold iter_next in E2. rewrite HN1 in E2.
      injection E2 as <- <-. now constructor.
    + destruct (N.le_gt_cases (ph_next (pg_header p)) i) as [HLE|HLT].
      { exfalso. destruct n as [|n]; [easy|]. cbn [collect_n] in E2. unfold iter_next in E2. rewrite HN1 in E2.
        now replace (ph_next (pg_header p) <? it_off it1) with true in E2 by lia. }
      constructor; try easy; [lia|]. apply (linked_loaded b d d1 _ i p HLD HP). rewrite <- HL1. apply (IH d1 it1 l2 d2); try easy. lia.
  - injection H as <- <-. unfold iter_next in E. rewrite HN in E. destruct (i <? it_off it); [easy|]. destruct (it_len it <=? i - it_off it); [easy|].
    now destruct (load_entry b d (it_base it + (i - it_off it)) i) as [? [?|?|]].
Qed.
Lemma iter_of_live d t : live d (iter_of d t).
Proof. unfold live. cbn. lia. Qed.
Lemma collect_iff b d t l :
  snd (collect b d (iter_of d t)) = Some (DOk l) <-> linked b d (tb_last t) (tb_first t) l.
Proof.
  split.
  - intro H. unfold collect in H. destruct (N.eq_dec (tb_first t) 0) as [HZ|NZ].
    { exfalso. cbn [collect_n] in H. unfold iter_next, iter_of in H. cbn [it_next it_off] in H. rewrite HZ in H. discriminate H. } destruct (collect_n b (S (S (length (db_pages d)))) d (iter_of d t)) as [d' r] eqn:E. cbn [snd] in H. subst r.
    apply (collect_linked_inv b _ d (iter_of d t) l d' (tb_first t) E); [apply iter_of_live|reflexivity|cbn; lia].
  - intro H. pose proof (linked_length _ _ _ _ _ H) as HL. destruct (collect_linked b (tb_last t) l d (iter_of d t) (tb_first t) (S (S (length (db_pages d))))) as (d' & E & _);
      [easy|apply iter_of_live|reflexivity|cbn [iter_of it_off]; lia|reflexivity|unfold len in HL; lia|]. unfold collect. now rewrite E.
Qed.
(** The fuel of [collect] is enough. *)
Lemma collect_fuel b : forall n d it, it_inv d it -> (len (db_pages d) + 1 - it_off it < N.of_nat n \/ it_next it = None /\ n <> O)%N ->
  it_off it <= len (db_pages d) + 1 ->
  snd (collect_n b n d it) <> None.
Proof.
  induction n as [|n IH]; intros d it HI HF HO; [lia|]. cbn [collect_n]. destruct (iter_next b d it) as [[d1 it1] [[[j p]|]|e|]] eqn:E; try easy.
  pose proof (iter_next_inv b d it d1 it1 _ HI E) as [HI1 HL1]. pose proof E as E0.
  apply iter_next_cases in E as [(_ & _ & _ & H)|[(i & _ & _ & _ & _ & H)|[(i & _ & _ & _ & _ & _ & H)|(i & r1 & E1 & E2 & E3 & EL & B1 & B2 & E4 & _ & H)]]]; try easy.
  specialize (IH d1 it1 HI1). destruct (collect_n b n d1 it1) as [d2 r2]. cbn [snd] in *. destruct r2 as [[l|e|]|]; try easy. exfalso. apply IH; [|destruct HI as [HI|HI]; lia|reflexivity].
  destruct HF as [HF|[HF _]]; [|congruence]. left. rewrite HL1, E4. destruct HI as [HI|HI]; lia.
Qed.
Lemma collect_total b d t : snd (collect b d (iter_of d t)) <> None.
Proof. unfold collect. apply collect_fuel; [apply iter_of_inv|left|]; cbn [iter_of it_off]; [unfold len; lia|lia]. Qed.

(** ** Rows *)

(** The pages in front of the end of the chain: [l] is what the iterator has returned so far. *)
Inductive visits (b : build) (d : database) (last : N) : N -> list (N * page) -> Prop :=
| visits_nil i : visits b d last i []
| visits_one i p : page_of b d i p -> visits b d last i [(i, p)]
| visits_step i p l : i <> last -> page_of b d i p -> i < ph_next (pg_header p) -> visits b d last (ph_next (pg_header p)) l ->
    visits b d last i ((i, p) :: l).
Definition rows_of (l : list (N * page)) : list row := flat_map (fun x => rows_of_page (snd x)) l.

Lemma linked_visits b d last l i : linked b d last i l -> visits b d last i l.
Proof. induction 1; now constructor. Qed.
Lemma visits_loaded b d d' last j q : loaded d d' j q -> page_of b d j q -> forall l i, visits b d last i l -> visits b d' last i l.
Proof.
  intros HL HP. assert (forall i p, page_of b d i p -> page_of b d' i p) as E by (intros i p H; now apply (page_of_loaded b d d' j q)).
  intros l i. induction 1; constructor; try easy; now apply E.
Qed.
Lemma rows_linked b k last : forall l d it i n, linked b d last i l -> live d it -> it_next it = Some i -> it_off it <= i -> it_last it = last ->
  (length l < n)%nat -> snd (rows_n b k n d it) = Some (rows_as k (rows_of l)).
Proof.
  induction l as [|[j q] l IH]; intros d it i n HK HV HN HO HL HF; [inversion HK|].
  assert (j = i /\ page_of b d i q) as [-> HP] by (inversion HK; subst; now split).
  destruct n as [|n]; [easy|]. cbn [length] in HF. destruct (iter_next_page b d it i q HV HN HO HP) as (d1 & it1 & E & HV1 & HLD & HO1 & HL1 & HN1).
  cbn [rows_n]. rewrite E. cbn [rows_of flat_map snd]. unfold rows_as. rewrite forallb_app.
  destruct (forallb (is_variant k) (rows_of_page q)) eqn:EQ; [|reflexivity]. cbn [andb]. fold (rows_of l).
  inversion HK as [p HP'|i' p l' NE HP' HI HK']; subst.
  - rewrite N.eqb_refl in HN1. destruct n as [|n]; [lia|]. cbn [rows_n]. unfold iter_next. rewrite HN1. reflexivity.
  - replace (i =? it_last it) with false in HN1 by lia.
    specialize (IH d1 it1 (ph_next (pg_header q)) n). destruct (rows_n b k n d1 it1) as [d2 r2]. cbn [snd] in *. rewrite IH; try easy; try lia.
    + unfold rows_as. now destruct (forallb (is_variant k) (rows_of l)).
    + now apply (linked_loaded b d d1 (it_last it) i q).
Qed.
Lemma rows_visits b k last : forall l d it i n, visits b d last i l -> live d it -> it_next it = Some i -> it_off it <= i -> it_last it = last ->
  (length l <= n)%nat -> forallb (is_variant k) (rows_of l) = false -> snd (rows_n b k n d it) = Some DPanic.
Proof.
  induction l as [|[j q] l IH]; intros d it i n HK HV HN HO HL HF HR; [easy|].
  assert (j = i /\ page_of b d i q) as [-> HP] by (inversion HK; subst; now split).
  destruct n as [|n]; [easy|]. cbn [length] in HF. destruct (iter_next_page b d it i q HV HN HO HP) as (d1 & it1 & E & HV1 & HLD & HO1 & HL1 & HN1).
  cbn [rows_n]. rewrite E. cbn [rows_of flat_map snd] in HR. unfold rows_as. rewrite forallb_app in HR.
  destruct (forallb (is_variant k) (rows_of_page q)) eqn:EQ; [|reflexivity]. cbn [andb] in HR. fold (rows_of l) in HR.
  inversion HK as [| |i' p l' NE HP' HI HK']; subst; [easy|].
  replace (i =? it_last it) with false in HN1 by lia.
  specialize (IH d1 it1 (ph_next (pg_header q)) n). destruct (rows_n b k n d1 it1) as [d2 r2]. cbn [snd] in *. rewrite IH; try easy; try lia.
  now apply (visits_loaded b d d1 (it_last it) i q).
Qed.
Lemma visits_length b d last : forall l i, visits b d last i l -> len l = 0 \/ 1 <= i /\ len l + i <= len (db_pages d) + 1.
Proof.
  intros l i H. induction H as [|i p HP|i p l NE HP HI HL IH].
  - now left.
  - apply page_of_range in HP. right. rewrite len_cons, len_nil. lia.
  - apply page_of_range in HP. rewrite len_cons. lia.
Qed.
Lemma iter_rows_linked b k d i t l : find_table (PT k) (db_header d) = Some (i, t) -> linked b d (tb_last t) (tb_first t) l ->
  snd (iter_rows b k d) = Some (rows_as k (rows_of l)).
Proof.
  intros HT HL. unfold iter_rows, iter_pages. rewrite HT. pose proof (linked_length _ _ _ _ _ HL) as HN.
  apply (rows_linked b k (tb_last t) l d (iter_of d t) (tb_first t)); [easy|apply iter_of_live|reflexivity|cbn [iter_of it_off]; lia|reflexivity|unfold len in HN; lia].
Qed.
Lemma iter_rows_visits b k d i t l : find_table (PT k) (db_header d) = Some (i, t) -> visits b d (tb_last t) (tb_first t) l ->
  forallb (is_variant k) (rows_of l) = false -> snd (iter_rows b k d) = Some DPanic.
Proof.
  intros HT HL HR. unfold iter_rows, iter_pages. rewrite HT. pose proof (visits_length _ _ _ _ _ HL) as HN.
  destruct HN as [HN|HN]; [destruct l as [|[x y] l]; [easy|rewrite len_cons in HN; lia]|].
  apply (rows_visits b k (tb_last t) l d (iter_of d t) (tb_first t)); [easy|apply iter_of_live|reflexivity|cbn [iter_of it_off]; lia|reflexivity|unfold len in HN; lia|easy].
Qed.

(** The rows of a page have the type given in its header.  That holds for each page that was read. *)
Definition page_typed (p : page) : Prop := match pg_content p with PData c => Forall (fun x => row_ptype_ok (ph_type (pg_header p)) (snd x)) (dc_rows c) | PIndex _ => True end.
Lemma typed_variants k p : page_typed p ->
  (forallb (is_variant k) (rows_of_page p) = false <-> rows_of_page p <> [] /\ ph_type (pg_header p) <> PT k).
Proof.
  unfold page_typed, rows_of_page. destruct (pg_content p) as [c|c]; [|easy]. intro HF. induction HF as [|[o r] l HR HF IH]; cbn [map forallb snd]; [easy|].
  assert (is_variant k r = false <-> ph_type (pg_header p) <> PT k) as E.
  { cbn [snd] in HR. destruct (ph_type (pg_header p)) as [k'|cc], r as [k2 vs oc|]; cbn in HR |- *; try easy. subst k2.
    destruct (rkind_eq_dec k k'); split; congruence. }
  destruct (is_variant k r) eqn:EV; cbn [andb].
  - rewrite IH. split; [|intros [_ H]; now apply E in H]. intros [H1 H2]. now apply E in H2.
  - split; [|easy]. intros _. split; [easy|]. now apply E.
Qed.
Lemma rd_row_typed rs pt buf pos r p : rd_row rs pt buf pos = Ok (r, p) -> row_ptype_ok pt r.
Proof.
  destruct pt as [k|c]; cbn [rd_row]; intro H; [|apply ret_inv in H as [<- _]; exact I].
  apply bind_inv in H as (vs & p1 & _ & H). destruct (row_oarr k) as [[off n]|].
  - apply bind_inv in H as (c & p2 & _ & H). apply ret_inv in H as [<- _]. reflexivity.
  - apply ret_inv in H as [<- _]. reflexivity.
Qed.
Lemma rd_page_typed b rs ps db buf pos p q : rd_page b rs ps db buf pos = Ok (p, q) -> page_typed p.
Proof.
  unfold rd_page. intro H. apply bind_inv in H as (h & p1 & _ & H). destruct (is_index_page (ph_flags h)).
  - apply bind_inv in H as (c & p2 & _ & H). apply ret_inv in H as [<- _]. exact I.
  - apply bind_inv in H as (c & p2 & R & H). apply ret_inv in H as [<- _]. unfold page_typed. cbn [pg_content pg_header]. unfold rd_dcontent in R.
    repeat (apply bind_inv in R as (? & ? & ? & R)). apply ret_inv in R as [<- _]. cbn [dc_rows].
    match goal with G : match rd_rows_at _ _ ?base ?os _ _ with _ => _ end = _ |- _ => destruct (rd_rows_at rs (ph_type h) base os [] buf) as [m| |] eqn:E; try easy; injection G as <- <- end.
    apply rd_rows_at_inv in E as (S & G & _). rewrite Forall_forall. intros [k r] HI. cbn [snd].
    apply map_get_in in HI; [|apply S; constructor]. apply G in HI as [(_ & y & R)|[_ R]]; [|easy]. now apply rd_row_typed in R.
Qed.
Lemma read_page_typed b d i p : read_page b d i = DOk p -> page_typed p.
Proof.
  unfold read_page. destruct (page_offset b i (dh_page_size (db_header d))) as [off| |]; [|easy|easy]. cbn [res_bind].
  destruct (rd_page b (rd_dstr b) (dh_page_size (db_header d)) (db_kind d) (db_io d) off) as [[q x]| |] eqn:E; try easy. intros [= <-]. now apply rd_page_typed in E.
Qed.

(** Pages in memory have rows of their type; so it is for a database just opened, and all pages that can be loaded are. *)
Definition db_typed (d : database) : Prop := forall k p, getN (db_pages d) k = Some (Some p) -> page_typed p.
Lemma page_of_typed b d i p : db_typed d -> page_of b d i p -> page_typed p.
Proof. intros HD (_ & [H|[_ H]]); [now apply HD in H|now apply read_page_typed in H]. Qed.
Lemma open_typed io k d : db_open io k = DOk d -> db_typed d.
Proof.
  unfold db_open. destruct (rd_dbhdr k io 0) as [[h q]| |]; try easy. intros [= <-] j p H. cbn [db_pages] in H.
  exfalso. assert (In (Some p) (repeat None (N.to_nat (dh_next h - 1)))) as HI by (apply in_getN; now exists j). now apply repeat_spec in HI.
Qed.
Lemma visits_typed b d last l i : db_typed d -> visits b d last i l -> Forall (fun x => page_typed (snd x)) l.
Proof. intros HD H. induction H as [|i p HP|i p l NE HP HI HL IH]; repeat constructor; cbn [snd]; try easy; now apply (page_of_typed b d i). Qed.
Lemma rows_variants k l : Forall (fun x => page_typed (snd x)) l ->
  (forallb (is_variant k) (rows_of l) = false <-> exists i p, In (i, p) l /\ rows_of_page p <> [] /\ ph_type (pg_header p) <> PT k).
Proof.
  intro HF. induction HF as [|[i p] l HP HF IH]; cbn [rows_of flat_map snd]; [split; [easy|intros (i & p & [] & _)]|].
  fold (rows_of l). rewrite forallb_app, andb_false_iff, IH. cbn [snd] in HP. rewrite typed_variants by easy. split.
  - intros [[H1 H2]|(j & q & H1 & H2)]; [exists i, p; now repeat split; [left|..]|exists j, q; split; [now right|easy]].
  - intros (j & q & [[= <- <-]|H1] & H2); [now left|right; now exists j, q].
Qed.
Lemma iter_rows_typed b k d i t l : db_typed d -> find_table (PT k) (db_header d) = Some (i, t) -> visits b d (tb_last t) (tb_first t) l ->
  (exists j p, In (j, p) l /\ rows_of_page p <> [] /\ ph_type (pg_header p) <> PT k) -> snd (iter_rows b k d) = Some DPanic.
Proof.
  intros HD HT HV HE. apply (iter_rows_visits b k d i t l HT HV). apply rows_variants; [|easy]. now apply (visits_typed b d (tb_last t) _ (tb_first t)).
Qed.
Lemma iter_rows_good b k d i t l : db_typed d -> find_table (PT k) (db_header d) = Some (i, t) -> linked b d (tb_last t) (tb_first t) l ->
  (forall j p, In (j, p) l -> rows_of_page p <> [] -> ph_type (pg_header p) = PT k) -> snd (iter_rows b k d) = Some (DOk (rows_of l)).
Proof.
  intros HD HT HL HE. rewrite (iter_rows_linked b k d i t l HT HL). unfold rows_as. destruct (forallb (is_variant k) (rows_of l)) eqn:E; [easy|].
  exfalso. apply rows_variants in E as (j & p & H1 & H2 & H3); [|apply (visits_typed b d (tb_last t) _ (tb_first t) HD); now apply linked_visits]. now apply H3, (HE j).
Qed.

(** ** Summaries *)
Lemma collect_result b d t l :
  (linked b d (tb_last t) (tb_first t) l -> exists d', collect b d (iter_of d t) = (d', Some (DOk l)) /\ loaded_all d d' l) /\
  (snd (collect b d (iter_of d t)) = Some (DOk l) -> linked b d (tb_last t) (tb_first t) l).
Proof.
  split; [|apply collect_iff]. intro H. pose proof (linked_length _ _ _ _ _ H) as HL. unfold collect.
  apply (collect_linked b (tb_last t) l d (iter_of d t) (tb_first t)); [easy|apply iter_of_live|reflexivity|cbn [iter_of it_off]; lia|reflexivity|unfold len in HL; lia].
Qed.
Lemma sticky b d it d1 it1 e d2 rs : iter_next b d it = (d1, it1, DErr e) -> trace b d2 it1 rs -> Forall is_err rs.
Proof. intros H HT. apply (trace_dead b rs d2 it1 HT). now apply (err_dead b d it d1 it1 (DErr e)). Qed.
Lemma load_lookup b d i : 1 <= i -> i <= len (db_pages d) -> i < 2 ^ 32 -> dh_page_size (db_header d) < 2 ^ 32 ->
  snd (load_page b d i) =
    match getN (db_pages d) (i - 1) with
    | Some (Some p) => DOk p
    | _ => match rd_page b (rd_dstr b) (dh_page_size (db_header d)) (db_kind d) (db_io d) (i * dh_page_size (db_header d)) with
           | Ok (p, _) => DOk p | Err e => DErr (DParse e) | Panic => DPanic end
    end.
Proof. intros H1 H2 H3 H4. rewrite load_page_present, read_page_eq by easy. reflexivity. Qed.
Lemma load_effect b d i p d' : 1 <= i -> load_page b d i = (d', DOk p) -> loaded d d' i p /\ load_page b d' i = (d', DOk p).
Proof. intros H1 H. split; [now apply load_page_loaded in H|now apply load_page_again in H]. Qed.
Lemma find_page_error t d : (exists i x, find_table t (db_header d) = Some (i, x) /\ iter_pages d t = DOk (iter_of d x)) \/
  (forall x, In x (dh_tables (db_header d)) -> tb_type x <> t) /\ iter_pages d t = DErr (DTableType t).
Proof.
  unfold iter_pages. destruct (find_table t (db_header d)) as [[i x]|] eqn:E; [left; now exists i, x|]. right. split; [apply find_table_none; exact E|easy].
Qed.
