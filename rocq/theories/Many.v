(** * Any number of programs that work on one file at the same time

    As in [Conc.v], with any number of programs and no condition on the pages they use. *)
From Coq Require Import NArith ZArith List Bool Lia.
From Coq Require Import ZifyBool ZifyNat ZifyN.
From Verif Require Import Base BaseFacts Segs Str Schema Oa Rows Page PageFacts PageRw PageSpec IndexSpec AllocFacts Db DbFacts DbFlush DbFresh Confine Window Conc.
Import ListNotations.
Open Scope N_scope.

(** A step: as in [Conc.v], or a change of the header in memory ([get_header_mut], /repo/src/pdb/io.rs:194-197). *)
Inductive step : Type := Step (o : op) | SHeader (f : dbhdr -> dbhdr).
(** What a program has in memory. *)
Definition memory : Type := dbhdr * list (option page).
Definition do_step (b : build) (k : dbtype) (io : list N) (m : memory) (s : step) : option (list N * memory) :=
  match s with
  | Step o => match do_op b k (fst m) io (snd m) o with Some (io, pg) => Some (io, (fst m, pg)) | None => None end
  | SHeader f => Some (io, (f (fst m), snd m))
  end.
(** The memory of each program. *)
Definition put (m : N -> memory) (w : N) (x : memory) : N -> memory := fun v => if v =? w then x else m v.
(** The steps of programs, each with the number of its program, in the order in which they happen. *)
Fixpoint many (b : build) (k : dbtype) (io : list N) (m : N -> memory) (l : list (N * step)) : option (list N * (N -> memory)) :=
  match l with
  | [] => Some (io, m)
  | (w, s) :: l => match do_step b k io (m w) s with Some (io, x) => many b k io (put m w x) l | None => None end
  end.
(** Whenever a program saves, its pages fit, its header is valid, fits in a page and says the page size [ps]. *)
Definition ready (b : build) (k : dbtype) (ps : N) (m : memory) : Prop :=
  all_inside b (mk_db [] k (fst m) (snd m)) /\ dbhdr_ok k (fst m) /\ 28 + 16 * len (dh_tables (fst m)) <= ps /\ dh_page_size (fst m) = ps.
Fixpoint many_fit (b : build) (k : dbtype) (ps : N) (io : list N) (m : N -> memory) (l : list (N * step)) : Prop :=
  match l with
  | [] => True
  | (w, s) :: l => (s = Step OSave -> ready b k ps (m w)) /\ match do_step b k io (m w) s with Some (io, x) => many_fit b k ps io (put m w x) l | None => True end
  end.
(** ** Spec *)
(** What all saves, from the first to the last one, had in memory. *)
Fixpoint saves (b : build) (k : dbtype) (io : list N) (m : N -> memory) (l : list (N * step)) : list memory :=
  match l with
  | [] => []
  | (w, s) :: l => (match s with Step OSave => [m w] | _ => [] end) ++ match do_step b k io (m w) s with Some (io, x) => saves b k io (put m w x) l | None => [] end
  end.
(** Page [i] as it was in memory at the last save with this page in memory. *)
Definition last_page (i : N) (l : list memory) : option page := fold_left (fun last x => match getN (snd x) (i - 1) with Some (Some p) => Some p | _ => last end) l None.
(** The header of the last save. *)
Definition last_header (h : dbhdr) (l : list memory) : dbhdr := fold_left (fun _ x => fst x) l h.

(** ** Saving *)
Section many.
Variables (b : build) (k : dbtype) (ps : N) (io0 : list N) (i : N).
Hypothesis H1 : 1 <= i.
Definition shows (io : list N) (last : option page) : Prop :=
  match last with
  | Some p => page_consistent b k ps p -> exists l, page_pieces b ps (i * ps) p l /\ segs_within (i * ps) ((i + 1) * ps) l /\ segs_in io l
  | None => forall x, i * ps <= x < (i + 1) * ps -> getN io x = getN io0 x
  end.
Lemma save_shows h io pg d last : ready b k ps (h, pg) -> flush b (mk_db io k h pg) = DOk d -> (i + 1) * ps <= len io -> shows io last ->
  (i + 1) * ps <= len (db_io d) /\ shows (db_io d) (match getN pg (i - 1) with Some (Some p) => Some p | _ => last end).
Proof.
  intros (HI & _ & HF & EP) HS HN HX. cbn [fst snd] in *. change (all_inside b (mk_db io k h pg)) in HI. rewrite <- EP in HF.
  assert (len io <= len (db_io d)) as LE by (destruct (flush_any _ _ _ _ _ _ HI HS) as (l & -> & _); apply write_segs_len). split; [lia|].
  assert ((forall p, getN pg (i - 1) <> Some (Some p)) -> forall x, i * ps <= x < (i + 1) * ps -> getN (db_io d) x = getN io x) as HK.
  { intros HU x X. apply (flush_frame b (mk_db io k h pg) d x HF HI HS); [cbn [db_io]; lia|]. split; cbn [db_header db_pages]; rewrite EP; [nia|]. intro p. replace (x / ps) with i by (apply (N.div_unique x ps i (x - i * ps)); lia). apply HU. }
  destruct (getN pg (i - 1)) as [[p|]|] eqn:G.
  - intro HC. destruct (flush_segs_in b (mk_db io k h pg) d (i - 1) p HF HI HS G) as (l & L1 & L2 & L3). cbn [db_header] in L1, L2. rewrite EP in L1, L2. replace (i - 1 + 1) with i in L1, L2 by lia. replace (i - 1 + 2) with (i + 1) in L2 by lia.
    destruct (consistent_pieces b k ps _ p l HC L1) as [C1 C2]. exists l. split; [exact L1|]. split; [exact L2|]. now apply L3.
  - assert (forall x, i * ps <= x < (i + 1) * ps -> getN (db_io d) x = getN io x) as HY by (now apply HK). destruct last as [p|]; cbn [shows] in *.
    + intro HC. destruct (HX HC) as (l & L1 & L2 & L3). exists l. split; [exact L1|]. split; [exact L2|]. apply (segs_in_ext io _ (i * ps) ((i + 1) * ps)); try assumption. lia.
    + intros x X. rewrite HY by exact X. now apply HX.
  - assert (forall x, i * ps <= x < (i + 1) * ps -> getN (db_io d) x = getN io x) as HY by (now apply HK). destruct last as [p|]; cbn [shows] in *.
    + intro HC. destruct (HX HC) as (l & L1 & L2 & L3). exists l. split; [exact L1|]. split; [exact L2|]. apply (segs_in_ext io _ (i * ps) ((i + 1) * ps)); try assumption. lia.
    + intros x X. rewrite HY by exact X. now apply HX.
Qed.
(** A step that is not a save leaves the file alone. *)
Lemma step_file io m s io1 x : do_step b k io m s = Some (io1, x) -> (s = Step OSave /\ x = m /\ exists d, flush b (mk_db io k (fst m) (snd m)) = DOk d /\ io1 = db_io d) \/ (io1 = io /\ match s with Step OSave => False | _ => True end).
Proof.
  destruct m as [h pg]. destruct s as [[j|j f|]|f]; cbn [do_step do_op fst snd].
  - destruct (load_page b (mk_db io k h pg) j) as [d [q|e|]]; try discriminate. intros [= <- _]. now right.
  - destruct (getN pg (j - 1)) as [[q|]|]; try discriminate. destruct (j =? 0); try discriminate. intros [= <- _]. now right.
  - destruct (flush b (mk_db io k h pg)) as [d| |] eqn:E; try discriminate. intros [= <- <-]. left. split; [reflexivity|]. split; [reflexivity|]. now exists d.
  - intros [= <- _]. now right.
Qed.
Lemma many_shows : forall l io m io' m' last, many b k io m l = Some (io', m') -> many_fit b k ps io m l -> (i + 1) * ps <= len io -> shows io last ->
  (i + 1) * ps <= len io' /\ shows io' (fold_left (fun last x => match getN (snd x) (i - 1) with Some (Some p) => Some p | _ => last end) (saves b k io m l) last).
Proof.
  induction l as [|[w s] l IH]; intros io m io' m' last HR HM HN HX; cbn [many many_fit saves] in *; [injection HR as <- <-; now split|].
  destruct HM as [M1 M2]. destruct (do_step b k io (m w) s) as [[io1 x]|] eqn:E; [|discriminate]. rewrite fold_left_app. apply step_file in E as [(-> & -> & d & EF & ->)|[-> E]].
  - specialize (M1 eq_refl). destruct (m w) as [h pg]. cbn [fst snd] in EF. destruct (save_shows h io pg d last M1 EF HN HX) as [S1 S2]. exact (IH _ _ _ _ _ HR M2 S1 S2).
  - assert (match s with Step OSave => [m w] | _ => [] end = []) as -> by (destruct s as [[| |]|]; easy). now apply (IH _ _ _ _ _ HR M2).
Qed.
End many.
Lemma many_header b k ps : forall l io m io' m' h, many b k io m l = Some (io', m') -> many_fit b k ps io m l -> dbhdr_ok k h /\ has io 0 (dbhdr_enc h) ->
  let h' := last_header h (saves b k io m l) in dbhdr_ok k h' /\ has io' 0 (dbhdr_enc h').
Proof.
  unfold last_header. induction l as [|[w s] l IH]; intros io m io' m' h HR HM HH; cbn [many many_fit saves] in *; [now injection HR as <- <-|].
  destruct HM as [M1 M2]. destruct (do_step b k io (m w) s) as [[io1 x]|] eqn:E; [|discriminate]. rewrite fold_left_app. apply step_file in E as [(-> & -> & d & EF & ->)|[-> E]].
  - specialize (M1 eq_refl). destruct (m w) as [h1 pg]. cbn [fst snd fold_left] in *. destruct M1 as (HI & HK & HF & EP). cbn [fst snd] in *. change (all_inside b (mk_db io k h1 pg)) in HI. rewrite <- EP in HF.
    apply (IH _ _ _ _ h1 HR M2). split; [exact HK|]. pose proof (flush_header b (mk_db io k h1 pg) d HF HI EF) as X. cbn [db_header] in X. now apply has_app in X as [X _].
  - assert (match s with Step OSave => [m w] | _ => [] end = []) as -> by (destruct s as [[| |]|]; easy). now apply (IH _ _ _ _ h HR M2).
Qed.
