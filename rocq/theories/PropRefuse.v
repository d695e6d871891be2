(** * Property C101: why a settings file is refused *)
From Coq Require Import NArith ZArith List Bool String Lia.
From Coq Require Import ZifyBool ZifyNat ZifyN.
From Verif Require Import Base BaseFacts AnlzCodec Crc CrcFacts Setting SettingFacts SettingSpec Layout LayoutSetting PropSetting.
Import ListNotations.
Open Scope N_scope.

(** ** Spec *)
(** Things that can be wrong, in the order in which they are noticed, with the error for each; the error is that of the first of them that is the case. *)
Fixpoint first_fault (l : list (Prop * err)) (e : err) : Prop :=
  match l with
  | [] => False
  | (P, x) :: r => (P /\ e = x) \/ (~ P /\ first_fault r e)
  end.
Definition faultless (l : list (Prop * err)) : Prop := Forall (fun q => ~ fst q) l.
(** The text at [pos] does not end before the end of the file; or not within 32 bytes. *)
Definition endless (buf : list N) (pos : N) : Prop := forall i, pos <= i -> getN buf i <> Some 0.
Definition too_long (buf : list N) (pos : N) : Prop := forall i, pos <= i -> i < pos + 32 -> getN buf i <> Some 0.
(** The byte of an option has no meaning, or is missing; fixed bytes are others, or are missing. *)
Definition bad_option (buf : list N) (q : string * N * list (N * string)) : Prop := ~ exists c v, getN buf (snd (fst q)) = Some c /\ In (c, v) (snd q).
Definition bad_data (t : stype) (buf : list N) : Prop :=
  Exists (bad_option buf) (option_table t) \/ Exists (fun q => ~ has buf (fst q) (snd q)) (constant_table t).
Definition checks (t : stype) (buf : list N) : list (Prop * err) :=
  [(len buf < 4, EIo); (number buf 0 4 <> Some 96, EAssertFail);
   (endless buf 4, EIo); (too_long buf 4, EAssertFail);
   (endless buf 36, EIo); (too_long buf 36, EAssertFail);
   (endless buf 68, EIo); (too_long buf 68, EAssertFail);
   (len buf < 104, EIo); (number buf 100 4 <> Some (size_of t), EAssertFail);
   (bad_data t buf, ENoVariant);
   (len buf < 108 + size_of t, EIo); (number buf (106 + size_of t) 2 <> Some 0, EAssertFail)].

(** ** Proofs *)
(** The result of a reader agrees with a list of checks. *)
Definition judged {A} (r : res A) (l : list (Prop * err)) : Prop := (exists a, r = Ok a /\ faultless l) \/ (exists e, r = Err e /\ first_fault l e).
Lemma first_not_faultless l e : first_fault l e -> ~ faultless l.
Proof.
  induction l as [|[P x] l IH]; intro H; [easy|]. intro F. inversion F as [|q l' H1 H2]; subst. cbn [fst] in H1. destruct H as [[H _]|[_ H]]; [easy|]. now apply IH.
Qed.
Lemma faultless_cons P e l : faultless ((P, e) :: l) -> ~ P /\ faultless l.
Proof. intro H. inversion H; subst. now split. Qed.
Lemma first_unique l e e' : first_fault l e -> first_fault l e' -> e = e'.
Proof. induction l as [|[P x] l IH]; intros H H'; [easy|]. cbn [first_fault] in *. destruct H as [[H ->]|[N H]], H' as [[H' ->]|[N' H']]; try easy. now apply IH. Qed.
Lemma judged_iff {A} (r : res A) l : judged r l -> (forall e, r = Err e <-> first_fault l e) /\ ((exists a, r = Ok a) <-> faultless l).
Proof.
  intros [(a & -> & F)|(e & -> & F)].
  - split; [|split; [easy|eauto]]. intro e. split; [discriminate|]. intro H. now apply first_not_faultless in H.
  - split.
    + intro e'. split; [intros [= <-]; exact F|]. intro H. now rewrite (first_unique _ _ _ F H).
    + split; [intros (a & H); discriminate|]. intro H. now apply first_not_faultless in F.
Qed.
Lemma judged_fault {A} (r : res A) (P : Prop) e l : P -> r = Err e -> judged r ((P, e) :: l).
Proof. intros H ->. right. exists e. split; [reflexivity|]. now left. Qed.
Lemma judged_pass {A} (r : res A) (P : Prop) e l : ~ P -> judged r l -> judged r ((P, e) :: l).
Proof.
  intros H [(a & -> & F)|(x & -> & F)]; [left|right]; eexists; (split; [reflexivity|]); [constructor; [exact H|exact F]|]. right. now split.
Qed.

Lemma le_cases n buf pos : n <> 0%nat -> (len buf < pos + N.of_nat n /\ rd_le n buf pos = Err EIo) \/
  (pos + N.of_nat n <= len buf /\ exists x, rd_le n buf pos = Ok (x, pos + N.of_nat n) /\ number buf pos n = Some x).
Proof.
  intro NZ. destruct (N.lt_ge_cases (len buf) (pos + N.of_nat n)) as [H|H].
  - left. split; [easy|]. unfold rd_le, bind. now rewrite rd_bytes_eof by lia.
  - right. split; [easy|]. unfold rd_le, bind. destruct (rd_bytes (N.of_nat n) buf pos) as [[bs p]|e|] eqn:R.
    + apply rd_bytes_inv in R as (L & -> & [R|R]); [lia|]. exists (le_dec bs). split; [reflexivity|]. apply number_has in R. replace n with (List.length bs) by (unfold len in L; lia). exact R.
    + unfold rd_bytes in R. replace (N.of_nat n =? 0) with false in R by lia. replace (pos + N.of_nat n <=? len buf) with true in R by lia. discriminate.
    + now apply rd_bytes_no_panic in R.
Qed.
Lemma str_cases buf pos : (endless buf pos /\ rd_str32 buf pos = Err EIo) \/ (~ endless buf pos /\ too_long buf pos /\ rd_str32 buf pos = Err EAssertFail) \/
  (~ endless buf pos /\ ~ too_long buf pos /\ exists s, rd_str32 buf pos = Ok (s, pos + 32)).
Proof.
  destruct (rd_nullstring buf pos) as [[s p]|e|] eqn:R; [| |now apply rd_nullstring_no_panic in R].
  - right. pose proof R as R'. apply rd_nullstring_inv in R' as (NZ & H & ->). pose proof H as H'. apply has_app in H' as [H1 H2]. apply has_cons in H2 as [H2 _].
    assert (~ endless buf pos) as NE by (intro E; apply (E (pos + len s)); [lia|exact H2]).
    unfold rd_str32, bind, rd_pad_to, guard, ret, fail. rewrite R. destruct (len s <=? 31) eqn:L.
    + right. split; [exact NE|]. split; [intro E; apply (E (pos + len s)); [lia|lia|exact H2]|]. exists s. replace (pos + len s + 1 - pos <? 32) with (len s <? 31) by lia.
      destruct (len s <? 31) eqn:L'; [reflexivity|]. do 2 f_equal. lia.
    + left. split; [exact NE|]. split; [|reflexivity]. intros i I1 I2 G. apply has_get in H1 as [_ H1]. specialize (H1 (i - pos) ltac:(lia)). replace (pos + (i - pos)) with i in H1 by lia. rewrite G in H1.
      symmetry in H1. unfold getN in H1. apply nth_error_In in H1. rewrite Forall_forall in NZ. now apply (NZ 0).
  - left. assert (endless buf pos) as E.
    { intros i I G. destruct (proj2 (rd_nullstring_ok_iff buf pos)) as (s & p & X); [eauto|]. congruence. }
    split; [exact E|]. unfold rd_str32, bind, rd_pad_to. rewrite R. f_equal.
    unfold rd_nullstring in R. revert R. generalize (S (List.length buf)), pos. clear. induction n as [|n IH]; intros pos R; cbn [rd_until0] in R; [now injection R|].
    unfold bind in R. destruct (rd_u8 buf pos) as [[v p]|x|] eqn:U; [| |discriminate].
    2: { destruct (le_cases 1 buf pos ltac:(easy)) as [[_ U']|(_ & y & U' & _)]; change (rd_le 1) with rd_u8 in U'; congruence. }
     destruct (v =? 0); [discriminate|]. destruct (rd_until0 n rd_u8 buf p) as [[a q]|y|] eqn:W; [discriminate| |discriminate].
    injection R as <-. now apply (IH p).
Qed.

Notation total l := (fold_right (fun i n => item_size i + n) 0 l).
Lemma item_cases buf : forall l pos, forallb item_wfb l = true ->
  (exists vs, rd_items l buf pos = Ok (vs, pos + total l) /\ Forall (fun q => ~ bad_option buf q) (item_table pos l) /\ Forall (fun q => has buf (fst q) (snd q)) (item_constants pos l)) \/
  (exists e, rd_items l buf pos = Err e /\ (len buf < pos + total l \/ Exists (bad_option buf) (item_table pos l) \/ Exists (fun q => ~ has buf (fst q) (snd q)) (item_constants pos l))).
Proof.
  induction l as [|i l IH]; intros pos W; [left; exists []; cbn; rewrite N.add_0_r; repeat split; constructor|].
  cbn [forallb] in W. apply andb_true_iff in W as [Wi W]. cbn [rd_items fold_right]. destruct i as [e|req d]; cbn [rd_item item_table item_constants item_size]; unfold bind, guard, ret, fail.
  - destruct (le_cases 1 buf pos ltac:(easy)) as [[L R]|(L & c & R & G)]; change (rd_le 1) with rd_u8 in R; rewrite R; [right; eexists; split; [reflexivity|left; lia]|].
    change (N.of_nat 1) with 1 in *. assert (getN buf pos = Some c) as GC.
    { cbn [number] in G. destruct (getN buf pos) as [x|]; [|discriminate]. cbn in G. injection G as <-. f_equal. lia. }
    destruct (se_variant e c) as [v|] eqn:V.
    + destruct (IH (pos + 1) W) as [(vs & -> & H1 & H2)|(x & -> & H)].
      * left. eexists. split; [do 2 f_equal; lia|]. split; [|exact H2]. constructor; [|exact H1]. intro B. apply B. cbn [fst snd]. exists c, v. split; [exact GC|].
        apply se_variant_in in V. apply (in_map (fun p => (snd p, fst p))) in V. exact V.
      * right. exists x. split; [reflexivity|]. destruct H as [H|[H|H]]; [left; lia|right; left; now right|right; right; exact H].
    + right. eexists. split; [reflexivity|]. right. left. left. intros (c' & v & G' & I). cbn [fst snd] in *. rewrite GC in G'. injection G' as <-.
      apply in_map_iff in I as ([v' c'] & [= -> ->] & I). cbn [item_wfb] in Wi. apply (in_se_variant e _ _ Wi) in I. congruence.
  - destruct (rd_bytes (len d) buf pos) as [[bs p]|x|] eqn:R; [| |now apply rd_bytes_no_panic in R].
    + apply rd_bytes_inv in R as (L & -> & H0). assert (bytes_eqb bs bs = true) as HR by now apply bytes_eqb_eq.
      destruct req as [r|].
      * destruct (bytes_eqb bs r) eqn:B.
        -- apply bytes_eqb_eq in B as ->. destruct (IH (pos + len d) W) as [(vs & -> & H1 & H2)|(x & -> & H)].
           ++ left. eexists. split; [do 2 f_equal; lia|]. split; [exact H1|]. constructor; [|exact H2]. cbn [fst snd].
              destruct H0 as [Z|H0]; [|exact H0]. cbn [item_wfb] in Wi. lia.
           ++ right. exists x. split; [reflexivity|]. destruct H as [H|[H|H]]; [left; lia|right; left; exact H|right; right; now right].
        -- right. eexists. split; [reflexivity|]. right. right. left. cbn [fst snd]. intro H. assert (bs = r) as ->; [|congruence]. cbn [item_wfb] in Wi. destruct H0 as [Z|H0]; [lia|].
           apply rd_bytes_has in H, H0. replace (len r) with (len bs) in H by lia. congruence.
      * destruct (IH (pos + len d) W) as [(vs & -> & H1 & H2)|(x & -> & H)].
        ++ left. eexists. split; [do 2 f_equal; lia|]. split; [exact H1|exact H2].
        ++ right. exists x. split; [reflexivity|]. destruct H as [H|[H|H]]; [left; lia|right; left; exact H|right; right; exact H].
    + right. eexists. split; [reflexivity|]. left. unfold rd_bytes in R. destruct (len d =? 0); [discriminate|]. destruct (pos + len d <=? len buf) eqn:E; [discriminate|]. lia.
Qed.

Lemma data_cases t buf : (bad_data t buf /\ rd_sdata t buf 104 = Err ENoVariant) \/ (~ bad_data t buf /\ 104 + size_of t <= len buf /\ exists d, rd_sdata t buf 104 = Ok (d, 104 + size_of t)).
Proof.
  unfold rd_sdata. assert (exists q, In q (constant_table t) /\ fst q + len (snd q) = 104 + size_of t) as (q & Q1 & Q2).
  { exists (last (constant_table t) (0, [])). destruct t; (split; [cbn; tauto|reflexivity]). }
  assert (data_size t = size_of t) as DS by reflexivity.
  destruct (item_cases buf (items_of t) 104 (layouts_wf t)) as [(vs & -> & H1 & H2)|(e & -> & H)]; rewrite <- ?option_table_items, <- ?constant_table_items, ?layouts_size, ?DS in *.
  - right. split; [|split; [|eauto]].
    + intros [B|B]; apply Exists_exists in B as (x & X1 & X2); [rewrite Forall_forall in H1; now apply (H1 x)|rewrite Forall_forall in H2; now apply X2, H2].
    + rewrite Forall_forall in H2. specialize (H2 q Q1). apply has_len in H2. lia.
  - left. split; [|reflexivity]. destruct H as [H|H]; [|exact H]. right. apply Exists_exists. exists q. split; [exact Q1|]. intro X. apply has_len in X. lia.
Qed.

(** C101.  Reading a settings file: it is refused exactly if one of the checks fails, with the error of the first of them. *)
Theorem c101_verdict : forall t buf,
  (forall e, rd_setting t buf 0 = Err e <-> first_fault (checks t buf) e) /\ ((exists a, rd_setting t buf 0 = Ok a) <-> faultless (checks t buf)).
Proof.
  intros t buf. apply judged_iff. unfold checks, rd_setting, bind, guard, ret, fail.
  destruct (le_cases 4 buf 0 ltac:(easy)) as [[L ->]|(L & n & -> & G)]; [now apply judged_fault|]. change (0 + N.of_nat 4) with 4 in *. apply judged_pass; [lia|].
  rewrite G. destruct (n =? 96) eqn:N96; [|apply judged_fault; [intros [= ->]; lia|reflexivity]]. apply N.eqb_eq in N96 as ->. apply judged_pass; [now intro H; apply H|].
  destruct (str_cases buf 4) as [[E ->]|[(E & E' & ->)|(E & E' & x & ->)]]; [now apply judged_fault|apply judged_pass; [easy|]; now apply judged_fault|]. apply judged_pass; [easy|]. apply judged_pass; [easy|]. change (4 + 32) with 36.
  destruct (str_cases buf 36) as [[F ->]|[(F & F' & ->)|(F & F' & y & ->)]]; [now apply judged_fault|apply judged_pass; [easy|]; now apply judged_fault|]. apply judged_pass; [easy|]. apply judged_pass; [easy|]. change (36 + 32) with 68.
  destruct (str_cases buf 68) as [[K ->]|[(K & K' & ->)|(K & K' & z & ->)]]; [now apply judged_fault|apply judged_pass; [easy|]; now apply judged_fault|]. apply judged_pass; [easy|]. apply judged_pass; [easy|]. change (68 + 32) with 100.
  destruct (le_cases 4 buf 100 ltac:(easy)) as [[L1 ->]|(L1 & m & -> & G1)]; [now apply judged_fault|]. change (100 + N.of_nat 4) with 104 in *. apply judged_pass; [lia|].
  rewrite G1. change (data_size t) with (size_of t). destruct (m =? size_of t) eqn:M; [|apply judged_fault; [intros [= ->]; lia|reflexivity]]. apply N.eqb_eq in M as ->. apply judged_pass; [now intro H; apply H|].
  destruct (data_cases t buf) as [[B ->]|(B & L2 & d & ->)]; [now apply judged_fault|]. apply judged_pass; [easy|].
  destruct (le_cases 2 buf (104 + size_of t) ltac:(easy)) as [[L3 ->]|(L3 & c & -> & G3)]; [apply judged_fault; [lia|reflexivity]|]. change (N.of_nat 2) with 2 in *.
  replace (104 + size_of t + 2) with (106 + size_of t) in * by lia.
  destruct (le_cases 2 buf (106 + size_of t) ltac:(easy)) as [[L4 ->]|(L4 & u & -> & G4)]; change (N.of_nat 2) with 2 in *; [apply judged_fault; [lia|reflexivity]|]. apply judged_pass; [lia|].
  rewrite G4. destruct (u =? 0) eqn:U; [|apply judged_fault; [intros [= ->]; lia|reflexivity]]. apply N.eqb_eq in U as ->. apply judged_pass; [now intro H; apply H|].
  left. eexists. split; [reflexivity|constructor].
Qed.
Print Assumptions c101_verdict.

(** What this means for a file that ends early: an accepted file cut short is refused, as data that does not fit if the cut is within the data, and as an input error otherwise. *)
Theorem c101_cut : forall t buf n a, rd_setting t buf 0 = Ok a -> n < 108 + size_of t ->
  rd_setting t (takeN n buf) 0 = Err (if (104 <=? n) && (n <? 104 + size_of t) then ENoVariant else EIo).
Proof.
  intros t buf n a HR HN. destruct (c101_verdict t buf) as [_ HV]. assert (faultless (checks t buf)) as HF by (apply HV; eauto). clear HR HV a.
  destruct (c101_verdict t (takeN n buf)) as [HV _]. apply HV. clear HV. unfold checks in HF.
  apply faultless_cons in HF as [_ HF]. apply faultless_cons in HF as [A1 HF]. apply faultless_cons in HF as [_ HF]. apply faultless_cons in HF as [A2 HF]. apply faultless_cons in HF as [_ HF].
  apply faultless_cons in HF as [A3 HF]. apply faultless_cons in HF as [_ HF]. apply faultless_cons in HF as [A4 HF]. apply faultless_cons in HF as [_ HF]. apply faultless_cons in HF as [A5 HF].
  apply faultless_cons in HF as [HB HF]. apply faultless_cons in HF as [A6 _].
  assert (n <= len buf) as LN by lia. assert (len (takeN n buf) = n) as LT by (rewrite len_takeN; lia).
  assert (forall i, i < n -> getN (takeN n buf) i = getN buf i) as GT by (intros i I; rewrite getN_takeN; now replace (i <? n) with true by lia).
  assert (forall i, n <= i -> getN (takeN n buf) i = None) as GN by (intros i I; apply getN_None; lia).
  assert (forall k pos, pos + N.of_nat k <= n -> number (takeN n buf) pos k = number buf pos k) as NT.
  { induction k as [|k IH]; intros pos I; [reflexivity|]. cbn [number]. now rewrite GT, IH by lia. }
  assert (forall pos, ~ too_long buf pos -> (endless (takeN n buf) pos /\ n < pos + 32) \/ (~ endless (takeN n buf) pos /\ ~ too_long (takeN n buf) pos)) as TX.
  { intros pos H. destruct (rd_nullstring (takeN n buf) pos) as [[x p]|e|] eqn:R; [| |now apply rd_nullstring_no_panic in R].
    - right. destruct (proj1 (rd_nullstring_ok_iff (takeN n buf) pos)) as (i & I & G); [eauto|]. assert (i < n) as IN by (apply getN_Some_lt in G; lia).
      split; [intro E; now apply (E i)|]. intro L. apply H. intros k K1 K2 GK. destruct (N.lt_ge_cases k n) as [KN|KN]; [apply (L k); [lia|lia|now rewrite GT]|]. apply (L i); [lia|lia|exact G].
    - left. assert (endless (takeN n buf) pos) as E; [|split; [exact E|]; destruct (N.lt_ge_cases n (pos + 32)) as [K|K]; [exact K|]; exfalso; apply H; intros i I1 I2 G; apply (E i I1); now rewrite GT by lia].
      intros i I G. destruct (proj2 (rd_nullstring_ok_iff (takeN n buf) pos)) as (x & p & X); [eauto|]. congruence. }
  unfold checks. cbn [first_fault]. rewrite LT.
  destruct (N.lt_ge_cases n 4) as [C|C]; [left; replace (104 <=? n) with false by lia; now split|right; split; [lia|]]. rewrite (NT 4%nat 0) by lia. right. split; [assumption|].
  destruct (TX 4 A2) as [[T C']|(T1 & T2)]; [left; split; [exact T|]; now replace (104 <=? n) with false by lia|]. right. split; [exact T1|]. right. split; [exact T2|].
  destruct (TX 36 A3) as [[T C']|(T3 & T4)]; [left; split; [exact T|]; now replace (104 <=? n) with false by lia|]. right. split; [exact T3|]. right. split; [exact T4|].
  destruct (TX 68 A4) as [[T C']|(T5 & T6)]; [left; split; [exact T|]; now replace (104 <=? n) with false by lia|]. right. split; [exact T5|]. right. split; [exact T6|].
  destruct (N.lt_ge_cases n 104) as [C1|C1]; [left; replace (104 <=? n) with false by lia; now split|right; split; [lia|]]. rewrite (NT 4%nat 100) by lia. right. split; [assumption|].
  replace (104 <=? n) with true by lia. cbn [andb]. destruct (n <? 104 + size_of t) eqn:C2.
  - left. split; [|reflexivity]. right. apply Exists_exists. exists (last (constant_table t) (0, [])).
    assert (In (last (constant_table t) (0, [])) (constant_table t) /\ fst (last (constant_table t) (0, [])) + len (snd (last (constant_table t) (0, []))) = 104 + size_of t) as [Q1 Q2] by (destruct t; (split; [cbn; tauto|reflexivity])).
    split; [exact Q1|]. intro X. apply has_len in X. lia.
  - right. split; [|left; split; [lia|reflexivity]]. intro B. apply HB. destruct B as [B|B]; [left|right]; apply Exists_exists in B as (q & Q1 & Q2); apply Exists_exists; exists q; (split; [exact Q1|]).
    + assert (forallb (fun q => snd (fst q) <? 104 + size_of t) (option_table t) = true) as W by (destruct t; vm_compute; reflexivity). rewrite forallb_forall in W. specialize (W q Q1).
      intros (c & v & G & I). apply Q2. exists c, v. now rewrite GT by lia.
    + assert (forallb (fun q => fst q + len (snd q) <=? 104 + size_of t) (constant_table t) = true) as W by (destruct t; vm_compute; reflexivity). rewrite forallb_forall in W. specialize (W q Q1).
      intro X. apply Q2. apply has_get in X as [X1 X2]. apply has_get. split; [lia|]. intros i I. rewrite GT by lia. now apply X2.
Qed.
Print Assumptions c101_cut.

(** ** Examples *)
(** The default file; with a byte that has no meaning; with a text without end; and a file with two faults, the first of which counts. *)
Definition c101_buf : list N := Eval vm_compute in match enc_setting (default_setting TMy) with Ok bs => bs | _ => [] end.
Example c101_example : rd_setting TMy c101_buf 0 = Ok (default_setting TMy, 148) /\ rd_setting TMy (write_at c101_buf 112 [130]) 0 = Err ENoVariant /\
  rd_setting TMy (write_at c101_buf 36 (repeat 65 32)) 0 = Err EAssertFail /\ rd_setting TMy (write_at (write_at c101_buf 112 [130]) 36 (repeat 65 32)) 0 = Err EAssertFail /\
  rd_setting TMy (takeN 120 c101_buf) 0 = Err ENoVariant /\ rd_setting TMy (takeN 145 c101_buf) 0 = Err EIo /\ rd_setting TMy (takeN 50 c101_buf) 0 = Err EIo.
Proof. vm_compute. repeat split. Qed.
Example c101_example_faults : first_fault (checks TMy (write_at (write_at c101_buf 112 [130]) 36 (repeat 65 32))) EAssertFail /\ faultless (checks TMy c101_buf).
Proof. split; apply c101_verdict; [vm_compute; reflexivity|]. eexists. vm_compute. reflexivity. Qed.
