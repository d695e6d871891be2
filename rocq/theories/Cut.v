(** * Saving that is interrupted *)
From Coq Require Import NArith ZArith List Bool Lia.
From Coq Require Import ZifyBool ZifyNat ZifyN.
From Verif Require Import Base BaseFacts Segs Str StrFacts StrGood Schema SchemaFacts Oa OaFacts OaSpec Rows RowFacts RowSpec Page BitFacts PageFacts PageRw PageSpec IndexSpec Alloc AllocFacts AllocSpec Db DbFacts DbFlush DbFresh DumpFacts Robust Reread Progress Insert Session Revise.
Import ListNotations.
Open Scope N_scope.

(** ** Model *)
(** [flush] (src/pdb/io.rs:213-218) writes the header page and then the pages in order (io.rs:33-67).  It may stop anywhere: because a row cannot be written, the device
    reports an error, or it is unplugged.  Where it stops, [j] is the page that is being written; the pages in front are complete, those behind are untouched. *)
Fixpoint unload_behind (n : nat) (l : list (option page)) : list (option page) :=
  match l with [] => [] | x :: r => match n with O => None :: unload_behind O r | S m => x :: unload_behind m r end end.
(** The database with pages [j] and behind taken out of memory: saving it writes the header page and the pages in front of [j]. *)
Definition unload_from (d : database) (j : N) : database := with_pages d (unload_behind (N.to_nat (j - 1)) (db_pages d)).
Definition interrupted (b : build) (d : database) (j : N) (io' : list N) : Prop :=
  let ps := dh_page_size (db_header d) in
  1 <= j /\ bytes_ok io' /\ exists d1, flush b (unload_from d j) = DOk d1 /\ forall x, x < len (db_io d1) -> x < j * ps \/ (j + 1) * ps <= x -> getN io' x = getN (db_io d1) x.
(** It stops within the header page: every byte there is the old or the new one. *)
Definition interrupted_header (d : database) (io' : list N) : Prop :=
  bytes_ok io' /\ forall x, x < len (db_io d) -> getN io' x = getN (db_io d) x \/ (x < dh_page_size (db_header d) /\ getN io' x = getN (header_page (db_header d)) x).

(** ** Spec *)
(** The pages as they are in the file: those of the last save. *)
Definition saved_step (P : rkind -> list N) (st : shelves * shelves) (a : act) : shelves * shelves :=
  let A := act_work P (fst st) a in (A, match a with ASave => A | _ => snd st end).
Definition saved (P : rkind -> list N) (A : shelves) (l : list act) : shelves := snd (fold_left (saved_step P) l (A, A)).
(** New pages in front of [j], old pages behind it; nothing is known about [j]. *)
Definition spliced (j : N) (new old : shelves) : shelves := fun i => if i <? j then new i else if i =? j then None else old i.

(** ** Unloading *)
Lemma getN_unload : forall l n k, getN (unload_behind n l) k = if k <? N.of_nat n then getN l k else if k <? len l then Some None else None.
Proof.
  induction l as [|x l IH]; intros n k; cbn [unload_behind].
  - rewrite len_nil. assert (getN (@nil (option page)) k = None) as -> by (apply getN_None; rewrite len_nil; lia). replace (k <? 0) with false by lia. now destruct (k <? N.of_nat n).
  - rewrite len_cons. destruct n as [|n]; rewrite getN_cons.
    + replace (k <? N.of_nat 0) with false by lia. destruct (k =? 0) eqn:E; [now replace (k <? 1 + len l) with true by lia|]. rewrite IH. replace (k - 1 <? N.of_nat 0) with false by lia.
      replace (k - 1 <? len l) with (k <? 1 + len l) by lia. easy.
    + rewrite getN_cons. destruct (k =? 0) eqn:E; [now replace (k <? N.of_nat (S n)) with true by lia|]. rewrite IH.
      replace (k - 1 <? N.of_nat n) with (k <? N.of_nat (S n)) by lia. now replace (k - 1 <? len l) with (k <? 1 + len l) by lia.
Qed.
Lemma len_unload : forall l n, len (unload_behind n l) = len l.
Proof. induction l as [|x l IH]; intro n; [easy|]. destruct n; cbn [unload_behind]; now rewrite !len_cons, IH. Qed.
Lemma unload_some d j k p : getN (db_pages (unload_from d j)) k = Some (Some p) -> k < j - 1 /\ getN (db_pages d) k = Some (Some p).
Proof.
  unfold unload_from. cbn [with_pages db_pages]. rewrite getN_unload. destruct (k <? N.of_nat (N.to_nat (j - 1))) eqn:E; [intro H; split; [lia|easy]|]. now destruct (k <? len (db_pages d)).
Qed.
Lemma unload_in d j k : k < j - 1 -> getN (db_pages (unload_from d j)) k = getN (db_pages d) k.
Proof. intro H. unfold unload_from. cbn [with_pages db_pages]. rewrite getN_unload. now replace (k <? N.of_nat (N.to_nat (j - 1))) with true by lia. Qed.
Lemma unload_out d j k : j - 1 <= k -> k < len (db_pages d) -> getN (db_pages (unload_from d j)) k = Some None.
Proof. intros H H2. unfold unload_from. cbn [with_pages db_pages]. rewrite getN_unload. replace (k <? N.of_nat (N.to_nat (j - 1))) with false by lia. now replace (k <? len (db_pages d)) with true by lia. Qed.

(** ** What is in the file *)
Definition on_disk (b : build) (d : database) (G : N -> grade) (A : shelves) : Prop :=
  exists d0, db_open (db_io d) (db_kind d) = DOk d0 /\ db_header d0 = db_header d /\ stores b d0 G A.
Lemma open_pages io k d : db_open io k = DOk d -> db_io d = io /\ db_kind d = k /\ len (db_pages d) = dh_next (db_header d) - 1 /\ forall j x, getN (db_pages d) j = Some x -> x = None.
Proof.
  unfold db_open. destruct (rd_dbhdr k io 0) as [[h q]| |]; try easy. intros [= <-]. cbn [db_io db_kind db_pages db_header]. repeat (split; [easy|]). split; [unfold len; rewrite repeat_length; lia|].
  intros j x HJ. assert (In x (repeat (@None page) (N.to_nat (dh_next h - 1)))) as X by (apply in_getN; now exists j). now apply repeat_spec in X.
Qed.
Lemma does_io b d a d' : does b d a d' -> a <> ASave -> db_io d' = db_io d /\ db_kind d' = db_kind d /\ db_header d' = db_header d.
Proof.
  assert (forall j d1 r, load_page b d j = (d1, r) -> db_io d1 = db_io d /\ db_kind d1 = db_kind d /\ db_header d1 = db_header d) as HL.
  { intros j d1 r H. unfold load_page in H. destruct (wsub b 64 j 1) as [pos| |]; [|now injection H as <- <-|now injection H as <- <-]. destruct (pos <? len (db_pages d)); [|now injection H as <- <-].
    pose proof (load_entry_same b d pos j) as (X1 & X2 & X3 & _). now rewrite H in X1, X2, X3. }
  assert (forall k f n i d0 it d1 r, assign_n b k f n i d0 it = (d1, r) -> db_io d1 = db_io d0 /\ db_kind d1 = db_kind d0 /\ db_header d1 = db_header d0) as HN.
  { intros k f. induction n as [|n IH]; intros i d0 it d1 r H; [now injection H as <- <-|]. cbn [assign_n] in H.
    destruct (iter_next b d0 it) as [[x y] z] eqn:E. apply iter_next_same in E as (X1 & X2 & X3 & _). destruct z as [[[j p]|]|e|]; try (now injection H as <- <-).
    destruct (forallb (is_variant k) (rows_of_page p)); [|now injection H as <- <-]. apply IH in H. unfold set_page in H. cbn [with_pages db_io db_kind db_header] in H. destruct H as (-> & -> & ->). easy. }
  intros [j ops d1 p p' E _|j f d1 p E|k f d1 E|j i d1 p p' E _|d1 _] NS; [now apply HL in E|now apply HL in E| |now apply HL in E|easy].
  unfold assign_all in E. destruct (iter_pages d (PT k)); [now apply HN in E|easy|easy].
Qed.
Lemma acts_on_disk b : forall d l d', acts b d l d' -> forall G P A A0, stores b d G A -> acts_ok b (db_header d) G P A l -> on_disk b d G A0 ->
  on_disk b d' G (snd (fold_left (saved_step P) l (A, A0))).
Proof.
  intros d l d' H. induction H as [d|d a d1 l d2 HD HR IH]; intros G P A A0 HS HA HO; [exact HO|]. cbn [acts_ok] in HA. destruct HA as [A1 A2]. destruct (does_stores b d a d1 G P A HS A1 HD) as (S1 & S2 & S3).
  cbn [fold_left]. unfold saved_step at 2. cbn [fst snd]. apply IH; [exact S1|now rewrite S2|]. destruct (match a with ASave => true | _ => false end) eqn:E.
  - destruct a; try easy. inversion HD as [| | | |? HF]; subst. cbn [act_work]. destruct (flush_stores b d d1 G A HS HF) as (d0 & O1 & O2 & O3 & O4). exists d0. rewrite S2, S3. now split.
  - assert (a <> ASave) as NS by (now destruct a). destruct (does_io b d a d1 HD NS) as (I1 & I2 & I3). replace (match a with ASave => _ | _ => A0 end) with A0 by (now destruct a).
    destruct HO as (d0 & O1 & O2 & O3). exists d0. rewrite I1, I2, I3. now split.
Qed.
(** ** Pages in front of the interruption are new, those behind are old *)
Lemma unload_stores b d G A A0 j : 1 <= j -> stores b d G A -> on_disk b d G A0 -> stores b (unload_from d j) G (fun i => if i <? j then A i else A0 i).
Proof.
  intros HJ (HS & HW & HA) (d0 & O1 & O2 & (T1 & T2 & T3)). destruct (open_pages _ _ _ O1) as (D1 & D2 & D3 & D4). pose proof HS as (S0 & S1 & S2 & S3 & S4). split; [|split].
  - unfold savable. change (db_io (unload_from d j)) with (db_io d). change (db_header (unload_from d j)) with (db_header d). change (db_kind (unload_from d j)) with (db_kind d).
    split; [exact S0|]. split; [exact S1|]. split; [exact S2|]. split; [unfold unload_from; cbn [with_pages db_pages]; now rewrite len_unload|]. intros k p HK. apply unload_some in HK as [_ HK]. now apply (S4 k).
  - intros k p HK. apply unload_some in HK as [_ HK]. now apply (HW k).
  - intros i s E. destruct (i <? j) eqn:EI.
    + destruct (HA i s E) as (p & P1 & P2 & P3). exists p. assert (1 <= i) as HI1 by apply P1. assert (getN (db_pages (unload_from d j)) (i - 1) = getN (db_pages d) (i - 1)) as EG by (apply unload_in; lia).
      split; [|split; [|exact P3]].
      * unfold page_of in *. now rewrite EG.
      * unfold kept_page, in_memory, self_contained in *. now rewrite EG.
    + destruct (T3 i s E) as (p & P1 & P2 & P3). exists p. pose proof (page_of_range b d0 i p P1) as [HI1 HI2].
      assert (getN (db_pages (unload_from d j)) (i - 1) = Some None) as EG by (apply unload_out; [lia|rewrite D3, O2, <- S3 in HI2; exact HI2]).
      assert (self_contained b d0 (G i) i p) as HC. { destruct P2 as [[[_ M] _]|P2]; [|exact P2]. apply D4 in M. discriminate. }
      assert (read_page b (unload_from d j) i = read_page b d0 i) as ER. { unfold read_page. change (db_io (unload_from d j)) with (db_io d). change (db_header (unload_from d j)) with (db_header d). change (db_kind (unload_from d j)) with (db_kind d). now rewrite D1, D2, O2. }
      split; [|split; [|exact P3]].
      * split; [easy|]. right. split; [exact EG|]. rewrite ER. destruct P1 as [_ [M|[_ M]]]; [|exact M]. apply D4 in M. discriminate.
      * right. unfold self_contained in *. rewrite EG. change (db_io (unload_from d j)) with (db_io d). change (db_header (unload_from d j)) with (db_header d). change (db_kind (unload_from d j)) with (db_kind d).
        rewrite D1, D2, O2 in HC. destruct HC as (C1 & _ & C3). now split.
Qed.
(** Files that differ only in one page. *)
Lemma torn_stores b io io' k d G A j : bytes_ok io' -> db_open io k = DOk d -> stores b d G A -> has io' 0 (dbhdr_enc (db_header d)) ->
  (forall x, x < len io -> x < j * dh_page_size (db_header d) \/ (j + 1) * dh_page_size (db_header d) <= x -> getN io' x = getN io x) ->
  exists d', db_open io' k = DOk d' /\ db_header d' = db_header d /\ stores b d' G (fun i => if i =? j then None else A i).
Proof.
  intros HB' HO (HS & HW & HA) HH HF. destruct (open_pages _ _ _ HO) as (D1 & D2 & D3 & D4). pose proof HS as (S0 & S1 & S2 & S3 & S4). set (ps := dh_page_size (db_header d)) in *.
  destruct (db_open io' k) as [d'|e|] eqn:HO'.
  2,3: unfold db_open in HO'; rewrite (dbhdr_wr k (db_header d)) in HO' by (easy || now rewrite <- D2); discriminate.
  exists d'. split; [easy|]. assert (db_header d' = db_header d) as EH. { unfold db_open in HO'. rewrite (dbhdr_wr k (db_header d)) in HO' by (easy || now rewrite <- D2). now injection HO' as <-. }
  split; [exact EH|]. destruct (open_pages _ _ _ HO') as (D1' & D2' & D3' & D4'). split; [|split].
  - unfold savable. rewrite D1', D2', EH, <- D2. split; [exact HB'|]. split; [exact S1|]. split; [exact S2|]. split; [rewrite D3'; now rewrite EH|]. intros n p HK. apply D4' in HK. discriminate.
  - intros n p HK. apply D4' in HK. discriminate.
  - intros i s E. destruct (i =? j) eqn:EI; [discriminate|]. destruct (HA i s E) as (p & P1 & P2 & P3). pose proof (page_of_range b d i p P1) as [HI1 HI2].
    assert (self_contained b d (G i) i p) as HC. { destruct P2 as [[[_ M] _]|P2]; [|exact P2]. apply D4 in M. discriminate. }
    assert (getN (db_pages d') (i - 1) = Some None) as EG. { destruct (getN_lt_Some (db_pages d') (i - 1)) as [x EX]; [rewrite D3', EH; lia|]. rewrite EX. now rewrite (D4' _ _ EX). }
    destruct HC as (_ & C2 & C3). fold ps in C3. assert (forall x, i * ps <= x -> x < (i + 1) * ps -> x < len (db_io d) -> getN io' x = getN (db_io d) x) as HIO.
    { intros x X1 X2 X3. rewrite D1 in *. apply HF; [easy|]. assert (i < j \/ j < i) as [X|X] by lia; [left|right]; nia. }
    destruct (C3 io' HB' HIO) as (p2 & z & R & K & GR). exists p2. split; [|split; [right|now apply (like_kept s p)]].
    + split; [easy|]. right. split; [easy|]. destruct S1 as (X1 & _ & X3 & _). unfold is_u32 in *. rewrite read_page_eq by (rewrite ?EH; fold ps; lia || easy). rewrite D1', D2', EH, <- D2. fold ps. now rewrite R.
    + unfold self_contained. rewrite D1', D2', EH, <- D2. fold ps. split; [easy|]. split; [easy|]. intros io2 HB2 HI2'. destruct (C3 io2 HB2) as (p3 & z3 & R3 & K3 & GR3).
      { intros x X1 X2 X3. pose proof (HIO x X1 X2 X3) as HX. destruct (getN_lt_Some (db_io d) x X3) as [y EY]. rewrite EY in HX |- *. rewrite <- HX. apply HI2'; try easy. now apply getN_Some_lt in HX. }
      exists p3, z3. split; [easy|]. split; [|easy]. apply (page_kept_trans _ p); [now apply page_kept_sym|easy].
Qed.
Lemma open_header b io k d G A : db_open io k = DOk d -> stores b d G A -> has io 0 (dbhdr_enc (db_header d)).
Proof.
  intros HO (HS & _). destruct (open_pages _ _ _ HO) as (D1 & _). assert (bytes_ok io) as HB by (rewrite <- D1; apply HS). unfold db_open in HO. destruct (rd_dbhdr k io 0) as [[h q]| |] eqn:E; try easy. injection HO as <-.
  cbn [db_header]. now apply dbhdr_rw in E as (_ & E & _).
Qed.
Lemma interrupted_stores b d G A A0 j io' : stores b d G A -> on_disk b d G A0 -> interrupted b d j io' ->
  exists d2, db_open io' (db_kind d) = DOk d2 /\ db_header d2 = db_header d /\ stores b d2 G (spliced j A A0).
Proof.
  intros HS HO (HJ & HB & d1 & HF & HX). pose proof (unload_stores b d G A A0 j HJ HS HO) as HU. destruct (flush_stores b _ d1 G _ HU HF) as (d2 & O1 & O2 & O3 & O4).
  change (db_kind (unload_from d j)) with (db_kind d) in *. change (db_header (unload_from d j)) with (db_header d) in *. cbv zeta in HX.
  assert (has io' 0 (dbhdr_enc (db_header d2))) as HH.
  { pose proof (open_header b _ _ _ _ _ O1 O4) as E. pose proof (has_len _ _ _ E) as EL. apply has_get in E as [_ E2]. rewrite O2 in *. rewrite len_dbhdr_enc in *. destruct HS as ((_ & _ & S2 & _) & _).
    apply has_get. rewrite len_dbhdr_enc. split; [lia|]. intros x Hx. rewrite <- E2 by easy. apply HX; [lia|left; nia]. }
  destruct (torn_stores b (db_io d1) io' (db_kind d) d2 G _ j HB O1 O4 HH) as (d3 & T1 & T2 & T3); [now rewrite O2|].
  exists d3. split; [exact T1|]. split; [congruence|]. eapply stores_ext; [|exact T3]. intro i. cbv beta. unfold spliced. destruct (i =? j) eqn:E1, (i <? j) eqn:E2; easy || lia.
Qed.
Lemma header_stores b d G A0 io' : on_disk b d G A0 -> interrupted_header d io' -> exists d2, db_open io' (db_kind d) = DOk d2 /\ db_header d2 = db_header d /\ stores b d2 G A0.
Proof.
  intros (d0 & O1 & O2 & O3) (HB & HX). pose proof (open_header b _ _ _ _ _ O1 O3) as E. destruct (torn_stores b (db_io d) io' (db_kind d) d0 G A0 0 HB O1 O3) as (d3 & T1 & T2 & T3).
  - pose proof (has_len _ _ _ E) as EL. apply has_get in E as [_ E2]. apply has_get. rewrite O2 in *. rewrite len_dbhdr_enc in *. split; [lia|].
    intros x Hx. destruct (HX (0 + x) ltac:(lia)) as [->|[_ ->]]; [now apply E2|]. unfold header_page. rewrite getN_app, len_dbhdr_enc. now replace (0 + x <? 28 + 16 * len (dh_tables (db_header d))) with true by lia.
  - rewrite O2. intros x X1 X2. destruct (HX x X1) as [X|[X _]]; [easy|lia].
  - exists d3. split; [exact T1|]. split; [congruence|]. eapply stores_ext; [|exact T3]. intro i. cbv beta. destruct (i =? 0) eqn:EI; [|easy]. destruct (A0 i) as [s|] eqn:EA; [|easy]. destruct O3 as (_ & _ & O3). destruct (O3 i s EA) as (p & P1 & _). apply page_of_range in P1. lia.
Qed.
(** ** The states [flush] goes through *)
Lemma wr_none b ps : forall l buf pos, wr_all (map (lpage_write b ps) (unload_behind 0 l)) (buf, pos) = Ok (buf, pos + len l * ps).
Proof.
  induction l as [|x l IH]; intros buf pos; cbn [unload_behind map wr_all]; [rewrite (@len_nil (option page)), N.mul_0_l, N.add_0_r; reflexivity|]. unfold wr_seq. cbn [lpage_write]. unfold wr_seek_rel. cbv beta iota zeta.
  destruct (Z.of_N pos + Z.of_N ps <? 0)%Z eqn:E; [lia|]. cbn [res_bind]. rewrite IH, len_cons. do 2 f_equal. lia.
Qed.
Lemma wr_steps b db ps : forall l buf pos s n e,
  Forall (fun e => match e with Some p => page_inside b db ps p | None => True end) l -> wr_all (map (lpage_write b ps) l) (buf, pos) = Ok s -> getN l (N.of_nat n) = Some e ->
  exists b1 b2 z, wr_all (map (lpage_write b ps) (unload_behind n l)) (buf, pos) = Ok (b1, z) /\ wr_all (map (lpage_write b ps) (unload_behind (S n) l)) (buf, pos) = Ok (b2, z) /\
    lpage_write b ps e (b1, pos + N.of_nat n * ps) = Ok (b2, pos + (N.of_nat n + 1) * ps).
Proof.
  induction l as [|x l IH]; intros buf pos s n e HF HW HN; [apply getN_Some_lt in HN; rewrite len_nil in HN; lia|]. inversion HF as [|? ? HX HF']; subst. cbn [map wr_all] in HW. unfold wr_seq in HW.
  assert (exists b1, lpage_write b ps x (buf, pos) = Ok (b1, pos + ps)) as [b1 E1].
  { destruct (lpage_write b ps x (buf, pos)) as [s1| |] eqn:E; [|easy|easy]. destruct x as [p|]; cbn [lpage_write] in E.
    - destruct (page_write_pieces b db ps p buf pos s1 HX E) as (l1 & _ & -> & _). now eexists.
    - exists buf. revert E. unfold wr_seek_rel. cbv beta iota zeta. destruct (Z.of_N pos + Z.of_N ps <? 0)%Z eqn:E2; [lia|]. intros [= <-]. do 2 f_equal. lia. }
  rewrite E1 in HW. cbn [res_bind] in HW. destruct n as [|n].
  - rewrite getN_cons in HN. replace (N.of_nat 0 =? 0) with true in HN by easy. injection HN as ->. exists buf, b1, (pos + len (e :: l) * ps). split; [apply wr_none|]. cbn [unload_behind map wr_all]. unfold wr_seq. rewrite E1. cbn [res_bind].
    rewrite wr_none, len_cons. split; [do 2 f_equal; lia|]. replace (pos + N.of_nat 0 * ps) with pos by lia. now replace (pos + (N.of_nat 0 + 1) * ps) with (pos + ps) by lia.
  - rewrite getN_cons in HN. replace (N.of_nat (S n) =? 0) with false in HN by lia. replace (N.of_nat (S n) - 1) with (N.of_nat n) in HN by lia. destruct (IH _ _ _ n e HF' HW HN) as (c1 & c2 & z & W1 & W2 & W3).
    exists c1, c2, z. cbn [unload_behind map wr_all]. unfold wr_seq. rewrite E1. cbn [res_bind]. cbn [unload_behind] in W2. split; [exact W1|]. split; [exact W2|]. replace (pos + N.of_nat (S n) * ps) with (pos + ps + N.of_nat n * ps) by lia.
    now replace (pos + (N.of_nat (S n) + 1) * ps) with (pos + ps + (N.of_nat n + 1) * ps) by lia.
Qed.
Lemma firstn_within lo hi l1 s l2 n : segs_within lo hi (l1 ++ s :: l2) -> segs_within lo hi (l1 ++ [(fst s, firstn n (snd s))]).
Proof.
  intro H. apply Forall_app in H as [H1 H2]. inversion H2 as [|? ? [H3 H4] _]; subst. apply Forall_app. split; [exact H1|]. constructor; [|constructor]. unfold seg_end in *. cbn [fst snd]. split; [easy|]. unfold len in *. rewrite firstn_length. lia.
Qed.
Lemma flush_steps b d d' j p : savable b d -> flush b d = DOk d' -> 1 <= j -> getN (db_pages d) (j - 1) = Some (Some p) ->
  let ps := dh_page_size (db_header d) in
  exists d1 d2 l, flush b (unload_from d j) = DOk d1 /\ flush b (unload_from d (j + 1)) = DOk d2 /\ db_io d2 = write_segs (db_io d1) l /\ page_pieces b ps (j * ps) p l /\ segs_within (j * ps) ((j + 1) * ps) l.
Proof.
  intros HS HF HJ HK ps. pose proof HS as (S0 & S1 & S2 & S3 & S4). unfold flush, db_write in HF. cbv zeta in HF. fold (header_page (db_header d)) in HF. unfold wr_seq at 1 in HF. cbn [wr_bytes res_bind] in HF.
  rewrite N.add_0_l, len_header_page in HF by easy. fold ps in HF. destruct (wr_all (map (lpage_write b ps) (db_pages d)) (write_at (db_io d) 0 (header_page (db_header d)), ps)) as [[io q]| |] eqn:E; [|easy|easy].
  assert (Forall (fun e => match e with Some p => page_inside b (db_kind d) ps p | None => True end) (db_pages d)) as HI.
  { apply Forall_forall. intros [x|] HIN; [|easy]. apply in_getN in HIN as (k & HX). apply consistent_inside. now apply (S4 k). }
  destruct (wr_steps b (db_kind d) ps _ _ _ _ (N.to_nat (j - 1)) (Some p) HI E) as (b1 & b2 & z & W1 & W2 & W3); [now rewrite N2Nat.id|]. rewrite N2Nat.id in W3. cbn [lpage_write] in W3.
  assert (page_inside b (db_kind d) ps p) as HP by (apply consistent_inside; now apply (S4 (j - 1))). destruct (page_write_pieces b (db_kind d) ps p _ _ _ HP W3) as (l & P1 & P2 & P3).
  assert (ps + (j - 1) * ps = j * ps) as EJ by nia. rewrite EJ in *. injection P2 as -> _. exists (mk_db b1 (db_kind d) (db_header d) (db_pages (unload_from d j))), (mk_db (write_segs b1 l) (db_kind d) (db_header d) (db_pages (unload_from d (j + 1)))), l.
  cbn [db_io]. replace ((j + 1) * ps) with (j * ps + ps) by lia. unfold flush, db_write. change (db_io (unload_from d ?x)) with (db_io d). change (db_header (unload_from d j)) with (db_header d). change (db_header (unload_from d (j + 1))) with (db_header d).
  change (db_io (unload_from d j)) with (db_io d). change (db_io (unload_from d (j + 1))) with (db_io d). change (db_kind (unload_from d j)) with (db_kind d). change (db_kind (unload_from d (j + 1))) with (db_kind d).
  cbv zeta. fold (header_page (db_header d)). unfold wr_seq. cbn [wr_bytes res_bind]. rewrite N.add_0_l, len_header_page by easy. fold ps. cbn [unload_from with_pages db_pages]. rewrite W1.
  replace (N.to_nat (j + 1 - 1)) with (S (N.to_nat (j - 1))) by lia. rewrite W2. now repeat split.
Qed.
Lemma flush_interrupted b d d' j p : savable b d -> flush b d = DOk d' -> 1 <= j -> getN (db_pages d) (j - 1) = Some (Some p) ->
  let ps := dh_page_size (db_header d) in
  exists d1 d2 l, flush b (unload_from d j) = DOk d1 /\ flush b (unload_from d (j + 1)) = DOk d2 /\ page_pieces b ps (j * ps) p l /\ db_io d2 = write_segs (db_io d1) l /\
    forall l1 s l2 n, l = l1 ++ s :: l2 -> interrupted b d j (write_segs (db_io d1) (l1 ++ [(fst s, firstn n (snd s))])).
Proof.
  intros HS HF HJ HK ps. destruct (flush_steps b d d' j p HS HF HJ HK) as (d1 & d2 & l & F1 & F2 & F3 & F4 & F5). exists d1, d2, l. do 4 (split; [easy|]). intros l1 s l2 n ->. split; [exact HJ|].
  pose proof (firstn_within _ _ l1 s l2 n F5) as HW. split.
  - apply bytes_ok_write_segs; [apply (flush_bytes b (unload_from d j)); [|easy]|].
    + destruct HS as (S0 & S1 & S2 & S3 & S4). split; [exact S0|]. split; [exact S1|]. split; [exact S2|]. split; [unfold unload_from; cbn [with_pages db_pages]; now rewrite len_unload|]. intros k q HQ. apply unload_some in HQ as [_ HQ]. now apply (S4 k).
    + apply (pieces_bytes b (db_kind d)) in F4; [|now apply HS in HK]. apply Forall_app in F4 as [B1 B2]. inversion B2 as [|? ? B3 _]; subst. apply Forall_app. split; [exact B1|]. constructor; [|constructor]. cbn [snd].
      unfold bytes_ok in *. rewrite Forall_forall in *. intros x Hx. apply B3. rewrite <- (firstn_skipn n (snd s)). apply in_or_app. now left.
  - exists d1. split; [exact F1|]. intros x X1 X2. apply write_segs_frame; [easy|]. intro HC. apply (segs_within_covered _ _ _ _ HW) in HC. lia.
Qed.
(** It starts with the header page and ends with the file that [flush] writes. *)
Lemma flush_first b d : 28 + 16 * len (dh_tables (db_header d)) <= dh_page_size (db_header d) -> exists d1, flush b (unload_from d 1) = DOk d1 /\ db_io d1 = write_at (db_io d) 0 (header_page (db_header d)).
Proof.
  intro HL. unfold flush, db_write. change (db_io (unload_from d 1)) with (db_io d). change (db_header (unload_from d 1)) with (db_header d). cbv zeta. fold (header_page (db_header d)). unfold wr_seq. cbn [wr_bytes res_bind].
  cbn [unload_from with_pages db_pages]. change (N.to_nat (1 - 1)) with O. rewrite wr_none. now eexists.
Qed.
Lemma unload_all : forall l n, (length l <= n)%nat -> unload_behind n l = l.
Proof. induction l as [|x l IH]; intros n H; [easy|]. destruct n as [|n]; cbn [length] in H; [lia|]. cbn [unload_behind]. now rewrite IH by lia. Qed.
Lemma flush_last d j : len (db_pages d) < j -> unload_from d j = d.
Proof. intro H. unfold unload_from. rewrite unload_all by (unfold len in H; lia). now destruct d. Qed.
(** Pages that are not in memory are skipped. *)
Lemma unload_skip d j : 1 <= j -> getN (db_pages d) (j - 1) = Some None -> unload_from d (j + 1) = unload_from d j.
Proof.
  intros HJ HK. unfold unload_from. f_equal. replace (N.to_nat (j + 1 - 1)) with (S (N.to_nat (j - 1))) by lia. rewrite <- (N2Nat.id (j - 1)) in HK. clear HJ. revert HK. generalize (N.to_nat (j - 1)). generalize (db_pages d).
  induction l as [|x l IH]; intros n HK; [easy|]. rewrite getN_cons in HK. destruct n as [|n]; [cbn in HK; injection HK as ->; easy|]. replace (N.of_nat (S n) =? 0) with false in HK by lia.
  replace (N.of_nat (S n) - 1) with (N.of_nat n) in HK by lia. change (unload_behind (S (S n)) (x :: l)) with (x :: unload_behind (S n) l). change (unload_behind (S n) (x :: l)) with (x :: unload_behind n l). now rewrite IH.
Qed.
