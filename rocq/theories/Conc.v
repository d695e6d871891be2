(** * Two programs that work on one file at the same time

    Both programs have opened the file; each has its own header and pages in memory ([LazyDatabase], /repo/src/pdb/io.rs:32-47),
    the file is shared.  [load_page] and [flush] are those of [Db.v]. *)
From Coq Require Import NArith ZArith List Bool Lia.
From Coq Require Import ZifyBool ZifyNat ZifyN.
From Verif Require Import Base BaseFacts AllocFacts Segs Str Schema Oa Rows Page PageFacts PageRw IndexSpec Db DbFacts DbFlush Confine Window.
Import ListNotations.
Open Scope N_scope.

(** ** Programs *)
(** What a program does: it asks for page [i] ([load_page], io.rs:104-123), it changes page [i], which it has in memory, in any way it likes
    (through the [&mut Page] that it was given), it saves ([flush], io.rs:213-218). *)
Inductive op : Type := OLoad (i : N) | OChange (i : N) (f : page -> page) | OSave.
(** One step of a program that has the pages [pg] in memory; [io] is the file. *)
Definition do_op (b : build) (k : dbtype) (h : dbhdr) (io : list N) (pg : list (option page)) (o : op) : option (list N * list (option page)) :=
  match o with
  | OLoad i => match load_page b (mk_db io k h pg) i with (d, DOk _) => Some (io, db_pages d) | _ => None end
  | OChange i f => match getN pg (i - 1) with
                   | Some (Some p) => if i =? 0 then None else Some (io, set_nth (N.to_nat (i - 1)) (Some (f p)) pg)
                   | _ => None end
  | OSave => match flush b (mk_db io k h pg) with DOk d => Some (db_io d, pg) | _ => None end
  end.
(** A program that has the file for itself. *)
Fixpoint alone (b : build) (k : dbtype) (h : dbhdr) (io : list N) (pg : list (option page)) (l : list op) : option (list N * list (option page)) :=
  match l with
  | [] => Some (io, pg)
  | o :: l => match do_op b k h io pg o with Some (io, pg) => alone b k h io pg l | None => None end
  end.
(** Two programs: the steps of the first ([true]) and of the second ([false]), in the order in which they happen. *)
Fixpoint both (b : build) (k : dbtype) (h : dbhdr) (io : list N) (pg pg' : list (option page)) (l : list (bool * op)) : option (list N * list (option page) * list (option page)) :=
  match l with
  | [] => Some (io, pg, pg')
  | (true, o) :: l => match do_op b k h io pg o with Some (io, pg) => both b k h io pg pg' l | None => None end
  | (false, o) :: l => match do_op b k h io pg' o with Some (io, pg') => both b k h io pg pg' l | None => None end
  end.
(** The steps of one program. *)
Definition steps_of (w : bool) (l : list (bool * op)) : list op := map snd (filter (fun x => Bool.eqb (fst x) w) l).
(** The pages that a program asks for. *)
Definition pages_of (l : list op) : list N := flat_map (fun o => match o with OLoad i => [i] | _ => [] end) l.

(** ** Spec *)
(** What is read as page [i] depends on the bytes of this page only. *)
Definition stands_alone (b : build) (k : dbtype) (h : dbhdr) (io : list N) (i : N) : Prop :=
  forall io', same_bytes io io' (i * dh_page_size h) ((i + 1) * dh_page_size h) -> read_page b (mk_db io' k h []) i = read_page b (mk_db io k h []) i.
(** Page [i] holds all that belongs to it: its bytes, taken as a file of their own, are read as a page, and no text in it could be taken for an ISRC. *)
Definition whole_page (b : build) (k : dbtype) (ps : N) (io : list N) (i : N) : Prop :=
  exists w p fin, len w = ps /\ has io (i * ps) w /\ rd_page b (rd_dstr_clear b) ps k w 0 = Ok (p, fin).
(** A program, alone, that asks for such pages only, and whose pages fit when it saves. *)
Fixpoint careful (b : build) (k : dbtype) (h : dbhdr) (io : list N) (pg : list (option page)) (l : list op) : Prop :=
  match l with
  | [] => True
  | o :: l => match o with OLoad i => getN pg (i - 1) = Some None -> stands_alone b k h io i | OChange _ _ => True | OSave => all_inside b (mk_db io k h pg) end /\
      match do_op b k h io pg o with Some (io, pg) => careful b k h io pg l | None => True end
  end.

(** ** Saving writes the same to every file *)
Lemma page_write_any b db ps p buf pos s : page_inside b db ps p -> page_write b ps p (buf, pos) = Ok s ->
  exists l, s = (write_segs buf l, pos + ps) /\ forall buf2, page_write b ps p (buf2, pos) = Ok (write_segs buf2 l, pos + ps).
Proof.
  intros HI HW. destruct (page_write_pieces _ _ _ _ _ _ _ HI HW) as (l & P1 & -> & P3). exists l. split; [reflexivity|]. intro buf2.
  assert (exists s, page_write b ps p (buf2, pos) = Ok s) as [s HS].
  { destruct p as [h [c|c]]; destruct HI as [HH HI]; cbn [pg_content pg_header] in *.
    - destruct HI as (H1 & H2 & H3 & H4 & _). rewrite (dpage_write_segs db) in * by (easy || lia). destruct (dpage_segs b ps pos h c) as [[l' r]| |]; [|easy|easy]. eexists. reflexivity.
    - destruct HI as (H1 & H2 & H3 & H4). destruct (ipage_write_eq db b ps h c buf pos H1 HH H3) as (hb & ib & _ & _ & _ & _ & E). rewrite E in HW.
      destruct (ipage_write_eq db b ps h c buf2 pos H1 HH H3) as (hb2 & ib2 & _ & _ & _ & _ & E2). rewrite E2. destruct ((ps - 80) / 4 <? ih_num (ic_header c)); [easy|]. eexists. reflexivity. }
  destruct (page_write_pieces _ _ _ _ _ _ _ HI HS) as (l2 & Q1 & -> & Q3). rewrite HS. assert (l2 = l) as ->; [|reflexivity].
  unfold page_pieces in *. destruct (pg_content p); [destruct P1, Q1; congruence|]. destruct P1 as (hb & ib & A1 & A2 & A3 & ->), Q1 as (hb2 & ib2 & B1 & B2 & B3 & ->). congruence.
Qed.
Lemma pages_write_any b db ps : forall pages buf pos s, Forall (fun e => match e with Some p => page_inside b db ps p | None => True end) pages ->
  wr_all (map (lpage_write b ps) pages) (buf, pos) = Ok s -> exists l q, s = (write_segs buf l, q) /\ forall buf2, wr_all (map (lpage_write b ps) pages) (buf2, pos) = Ok (write_segs buf2 l, q).
Proof.
  induction pages as [|e pages IH]; intros buf pos s HF HW; cbn [map wr_all] in *; [injection HW as <-; exists [], pos; now split|]. unfold wr_seq in *. inversion HF as [|? ? HE HF']; subst.
  assert (exists l q, lpage_write b ps e (buf, pos) = Ok (write_segs buf l, q) /\ forall buf2, lpage_write b ps e (buf2, pos) = Ok (write_segs buf2 l, q)) as (l & q & E1 & E2).
  { destruct e as [p|]; cbn [lpage_write] in *.
    - destruct (page_write b ps p (buf, pos)) as [s1| |] eqn:E; [|easy|easy]. destruct (page_write_any _ _ _ _ _ _ _ HE E) as (l & -> & X). exists l, (pos + ps). now split.
    - unfold wr_seek_rel in *. destruct (Z.of_N pos + Z.of_N ps <? 0)%Z; [easy|]. exists [], (Z.to_N (Z.of_N pos + Z.of_N ps)). now split. }
  rewrite E1 in HW. cbn [res_bind] in HW. destruct (IH _ _ _ HF' HW) as (l2 & q2 & -> & X). exists (l ++ l2), q2. rewrite write_segs_app. split; [reflexivity|]. intro buf2. rewrite E2. cbn [res_bind]. now rewrite X, write_segs_app.
Qed.
Lemma flush_any b k h io pg d : all_inside b (mk_db io k h pg) -> flush b (mk_db io k h pg) = DOk d ->
  exists l, db_io d = write_segs io l /\ forall io2, flush b (mk_db io2 k h pg) = DOk (mk_db (write_segs io2 l) k h pg).
Proof.
  intros HI HF. unfold flush, db_write in *. cbv zeta in *. cbn [db_io db_kind db_header db_pages] in *. unfold wr_seq in *. cbn [wr_bytes res_bind] in *. set (hp := dbhdr_enc h ++ zeros (dh_page_size h - len (dbhdr_enc h))) in *.
  destruct (wr_all (map (lpage_write b (dh_page_size h)) pg) (write_at io 0 hp, 0 + len hp)) as [[io1 q]| |] eqn:E; [|easy|easy]. injection HF as <-. cbn [db_io].
  apply (pages_write_any b k) in E as (l & q' & EQ & X).
  - injection EQ as -> ->. exists ((0, hp) :: l). split; [reflexivity|]. intro io2. now rewrite X.
  - apply Forall_forall. intros [p|] HIN; [|easy]. apply in_getN in HIN as (j & HJ). now apply (HI j).
Qed.
Lemma write_segs_agree i : forall l buf buf2, i < len buf -> i < len buf2 -> getN buf i = getN buf2 i -> getN (write_segs buf l) i = getN (write_segs buf2 l) i.
Proof.
  induction l as [|[p bs] l IH]; intros buf buf2 L1 L2 H; [exact H|]. cbn [write_segs]. pose proof (len_write_at_ge buf p bs). pose proof (len_write_at_ge buf2 p bs). apply IH; [lia|lia|].
  destruct bs as [|x bs]; [rewrite !write_at_nil; exact H|]. rewrite !getN_write_at by easy. replace (i <? len buf) with true by lia. replace (i <? len buf2) with true by lia.
  destruct (i <? p); [exact H|]. now destruct (i <? p + len (x :: bs)).
Qed.

(** ** Reading *)
Lemma whole_alone b k h io i : len io < 2 ^ 64 -> whole_page b k (dh_page_size h) io i -> stands_alone b k h io i.
Proof.
  intros HL (w & p & fin & W1 & W2 & W3) io' HS. set (ps := dh_page_size h) in *. assert (has io' (i * ps) w) as W4 by (apply (kept_has io io' (i * ps) ((i + 1) * ps)); [exact HS|exact W2|rewrite W1; lia]).
  assert (forall x, has x (i * ps) w -> read_page b (mk_db x k h []) i = DOk p) as HR; [|now rewrite (HR io), (HR io')].
  intros x X. unfold read_page. cbn [db_io db_kind db_header]. fold ps. unfold page_offset, wmul. apply has_len in W2. replace (i * ps <? 2 ^ 64) with true by lia. cbn [res_bind].
  pose proof (win_page_read x w (i * ps) X b _ _ ps k (win_dstr x w (i * ps) X b) 0 p fin W3) as E. rewrite N.add_0_r in E. now rewrite E.
Qed.

(** ** A step next to another program *)
(** The bytes of the pages in [S] are the same in both files. *)
Definition agree_on (ps : N) (S : list N) (io io' : list N) : Prop := forall x, ps <= x -> x < len io -> In (x / ps) S -> getN io x = getN io' x.
Definition loaded_in (pg : list (option page)) (S : list N) : Prop := forall j p, getN pg j = Some (Some p) -> In (j + 1) S.

Lemma step_beside b k h S io ioa pg o ioa' pg' : 28 + 16 * len (dh_tables h) <= dh_page_size h -> dh_page_size h <= len io ->
  (forall i, In i S -> 1 <= i /\ (i + 1) * dh_page_size h <= len io) -> len ioa = len io -> agree_on (dh_page_size h) S io ioa -> loaded_in pg S ->
  do_op b k h ioa pg o = Some (ioa', pg') -> match o with OLoad i => In i S /\ (getN pg (i - 1) = Some None -> stands_alone b k h ioa i) | OChange _ _ => True | OSave => all_inside b (mk_db ioa k h pg) end ->
  exists io', do_op b k h io pg o = Some (io', pg') /\ len io' = len io /\ len ioa' = len io /\ agree_on (dh_page_size h) S io' ioa' /\ loaded_in pg' S /\
    (forall x, dh_page_size h <= x -> x < len io -> ~ In (x / dh_page_size h) S -> getN io' x = getN io x) /\
    (o = OSave -> has io' 0 (header_page h)) /\ (o <> OSave -> io' = io).
Proof.
  intros HF HP HS HL HA HI HO HC. set (ps := dh_page_size h) in *. destruct o as [i|i f|]; cbn [do_op] in *.
  - destruct HC as [C1 C2]. exists io. unfold load_page in *. destruct (wsub b 64 i 1) as [j| |] eqn:W; [|discriminate|discriminate]. cbn [db_pages] in *. destruct (j <? len pg) eqn:EJ; [|discriminate].
    assert (i = j + 1) as ->.
    { apply HS in C1. unfold wsub in W. replace (1 <=? i) with true in W by lia. injection W as <-. lia. }
    rewrite N.add_sub in C2. unfold load_entry in *. cbn [db_pages] in *. destruct (getN pg j) as [[p|]|] eqn:G; [| |discriminate].
    + injection HO as <- <-. cbn [db_pages]. now repeat (split; [easy|]).
    + assert (read_page b (mk_db io k h pg) (j + 1) = read_page b (mk_db ioa k h pg) (j + 1)) as ER.
      { refine (C2 eq_refl io _). fold ps. pose proof (HS _ C1). split; [lia|]. split; [lia|]. intros x X. apply HA; [nia|lia|]. replace (x / ps) with (j + 1); [exact C1|]. apply (N.div_unique x ps (j + 1) (x - (j + 1) * ps)); lia. }
      rewrite ER. destruct (read_page b (mk_db ioa k h pg) (j + 1)) as [p| |]; [|discriminate|discriminate]. unfold with_pages in *. cbn [db_pages] in *. injection HO as <- <-.
      split; [reflexivity|]. split; [easy|]. split; [easy|]. split; [easy|]. split; [|easy].
      intros x q X. rewrite getN_set_nth in X by lia. destruct (x =? j) eqn:XJ; [replace x with j by lia; exact C1|now apply (HI x q)].
  - exists io. destruct (getN pg (i - 1)) as [[p|]|] eqn:G; [|discriminate|discriminate]. destruct (i =? 0); [discriminate|]. injection HO as <- <-. split; [reflexivity|]. split; [easy|]. split; [easy|]. split; [easy|]. split; [|easy].
    pose proof (getN_Some_lt _ _ _ G). intros x q X. rewrite getN_set_nth in X by lia. destruct (x =? i - 1) eqn:XJ; [replace x with (i - 1) by lia; now apply (HI _ p)|now apply (HI x q)].
  - destruct (flush b (mk_db ioa k h pg)) as [d| |] eqn:EF; [|discriminate|discriminate]. injection HO as <- <-. destruct (flush_any _ _ _ _ _ _ HC EF) as (l & E1 & E2). exists (write_segs io l). rewrite E2. cbn [db_io].
    assert (all_inside b (mk_db io k h pg)) as HC2 by exact HC. split; [reflexivity|].
    assert (forall j p, getN pg j = Some (Some p) -> (j + 2) * ps <= len io) as HIN. { intros j p G. apply HI in G. apply HS in G. replace (j + 2) with (j + 1 + 1) by lia. apply G. }
    assert (len (write_segs io l) = len io) as L1 by exact (flush_len b (mk_db io k h pg) (mk_db (write_segs io l) k h pg) HF HC2 (E2 io) HIN HP).
    assert (len (db_io d) = len io) as L2 by (rewrite <- HL; apply (flush_len b (mk_db ioa k h pg) d HF HC EF); cbn [db_io db_pages db_header]; rewrite HL; assumption).
    split; [exact L1|]. split; [exact L2|]. split; [|split; [exact HI|split; [|split; [|easy]]]].
    + intros x X1 X2 X3. rewrite E1. rewrite L1 in X2. apply write_segs_agree; [lia|lia|now apply HA].
    + intros x X1 X2 X3. apply (flush_frame b (mk_db io k h pg) (mk_db (write_segs io l) k h pg) x HF HC2 (E2 io) X2). split; [exact X1|]. cbn [db_pages db_header]. fold ps. intros p G. apply HI in G. apply X3. replace (x / ps) with (x / ps - 1 + 1); [exact G|].
      assert (1 <= x / ps) by (apply N.div_le_lower_bound; lia). lia.
    + intros _. exact (flush_header b (mk_db io k h pg) (mk_db (write_segs io l) k h pg) HF HC2 (E2 io)).
Qed.

(** ** Both programs *)
Section both.
Variables (b : build) (k : dbtype) (h : dbhdr) (A B : list N) (io0 : list N).
Hypothesis HF : 28 + 16 * len (dh_tables h) <= dh_page_size h.
Hypothesis HP : dh_page_size h <= len io0.
Hypothesis HA : forall i, In i A -> 1 <= i /\ (i + 1) * dh_page_size h <= len io0.
Hypothesis HB : forall i, In i B -> 1 <= i /\ (i + 1) * dh_page_size h <= len io0.
Hypothesis HD : forall i, In i A -> ~ In i B.
Notation ps := (dh_page_size h).
(** The file of both, next to the files that each would have if it were alone. *)
Definition beside (io ioa iob : list N) (pa pb : list (option page)) : Prop :=
  len io = len io0 /\ len ioa = len io0 /\ len iob = len io0 /\ agree_on ps A io ioa /\ agree_on ps B io iob /\ loaded_in pa A /\ loaded_in pb B /\
  (forall x, ps <= x -> x < len io0 -> ~ In (x / ps) A -> ~ In (x / ps) B -> getN io x = getN io0 x).
Lemma both_beside : forall l io ioa iob pa pb ioa' pa' iob' pb', beside io ioa iob pa pb ->
  alone b k h ioa pa (steps_of true l) = Some (ioa', pa') -> alone b k h iob pb (steps_of false l) = Some (iob', pb') ->
  careful b k h ioa pa (steps_of true l) -> careful b k h iob pb (steps_of false l) ->
  (forall i, In i (pages_of (steps_of true l)) -> In i A) -> (forall i, In i (pages_of (steps_of false l)) -> In i B) ->
  exists io', both b k h io pa pb l = Some (io', pa', pb') /\ beside io' ioa' iob' pa' pb' /\
    (if existsb (fun x => match snd x with OSave => true | _ => false end) l then has io' 0 (header_page h) else io' = io).
Proof.
  induction l as [|[w o] l IH]; intros io ioa iob pa pb ioa' pa' iob' pb' HI RA RB CA CB PA PB.
  - cbn in *. injection RA as <- <-. injection RB as <- <-. exists io. now split.
  - destruct HI as (L & LA & LB & GA & GB & IA & IB & HX). destruct w.
    + unfold steps_of in RA, CA, PA, RB, CB, PB. cbn [filter fst Bool.eqb map snd] in RA, CA, PA, RB, CB, PB. fold (steps_of true l) in RA, CA, PA. fold (steps_of false l) in RB, CB, PB.
      cbn [alone careful] in RA, CA. destruct CA as [C1 C2]. destruct (do_op b k h ioa pa o) as [[ioa1 pa1]|] eqn:E; [|discriminate].
      destruct (step_beside b k h A io ioa pa o ioa1 pa1) as (io1 & S1 & S2 & S3 & S4 & S5 & S6 & S7 & S8); try rewrite L; try easy.
      { destruct o; [|easy|easy]. split; [|exact C1]. apply PA. now left. }
      assert (beside io1 ioa1 iob pa1 pb) as HI1.
      { rewrite L in *. repeat (split; [assumption|]). split; [|split; [assumption|split; [assumption|]]].
        - intros x X1 X2 X3. rewrite S2 in X2. rewrite S6 by (try assumption; intro; now apply (HD (x / ps))). apply GB; [exact X1|now rewrite L|exact X3].
        - intros x X1 X2 X3 X4. rewrite S6 by assumption. now apply HX. }
      destruct (IH io1 ioa1 iob pa1 pb ioa' pa' iob' pb' HI1 RA RB C2 CB) as (io' & R1 & R2 & R3).
      { intros i Hi. apply PA. unfold pages_of in *. cbn [flat_map]. apply in_or_app. now right. }
      { exact PB. }
      exists io'. cbn [both]. rewrite S1. split; [exact R1|]. split; [exact R2|]. cbn [existsb snd].
      destruct (existsb _ l); [now rewrite orb_true_r|]. subst io'. destruct o; cbn [orb]; [now apply S8|now apply S8|now apply S7].
    + unfold steps_of in RA, CA, PA, RB, CB, PB. cbn [filter fst Bool.eqb map snd] in RA, CA, PA, RB, CB, PB. fold (steps_of true l) in RA, CA, PA. fold (steps_of false l) in RB, CB, PB.
      cbn [alone careful] in RB, CB. destruct CB as [C1 C2]. destruct (do_op b k h iob pb o) as [[iob1 pb1]|] eqn:E; [|discriminate].
      destruct (step_beside b k h B io iob pb o iob1 pb1) as (io1 & S1 & S2 & S3 & S4 & S5 & S6 & S7 & S8); try rewrite L; try easy.
      { destruct o; [|easy|easy]. split; [|exact C1]. apply PB. now left. }
      assert (beside io1 ioa iob1 pa pb1) as HI1.
      { rewrite L in *. split; [assumption|]. split; [assumption|]. split; [assumption|]. split; [|split; [assumption|split; [assumption|split; [assumption|]]]].
        - intros x X1 X2 X3. rewrite S2 in X2. rewrite S6 by (try assumption; intro; now apply (HD (x / ps))). apply GA; [exact X1|now rewrite L|exact X3].
        - intros x X1 X2 X3 X4. rewrite S6 by assumption. now apply HX. }
      destruct (IH io1 ioa iob1 pa pb1 ioa' pa' iob' pb' HI1 RA RB CA C2) as (io' & R1 & R2 & R3).
      { exact PA. }
      { intros i Hi. apply PB. unfold pages_of in *. cbn [flat_map]. apply in_or_app. now right. }
      exists io'. cbn [both]. rewrite S1. split; [exact R1|]. split; [exact R2|]. cbn [existsb snd].
      destruct (existsb _ l); [now rewrite orb_true_r|]. subst io'. destruct o; cbn [orb]; [now apply S8|now apply S8|now apply S7].
Qed.
End both.

Lemma both_serial b k h lb : forall la io pa0 pb0 io' pa pb ioa pa', both b k h io pa0 pb0 (map (pair true) la ++ map (pair false) lb) = Some (io', pa, pb) ->
  alone b k h io pa0 la = Some (ioa, pa') -> alone b k h ioa pb0 lb = Some (io', pb).
Proof.
  induction la as [|o la IH]; intros io pa0 pb0 io' pa pb ioa pa' R2 RA.
  - cbn [map app alone] in *. injection RA as <- <-. revert io pb0 R2. induction lb as [|o ops IH]; intros io pb0 R2; cbn [map both alone] in *; [congruence|].
    destruct (do_op b k h io pb0 o) as [[io1 p1]|]; [|discriminate]. now apply IH in R2.
  - cbn [map app alone both] in *. destruct (do_op b k h io pa0 o) as [[io1 p1]|]; [|discriminate]. exact (IH _ _ _ _ _ _ _ _ R2 RA).
Qed.
