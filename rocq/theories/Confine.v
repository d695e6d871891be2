(** * What is read from a page that holds all that belongs to it depends on the bytes of this page only

    Facts about the descriptions of [AcceptStr.v], [AcceptPage.v] and [AcceptDb.v]; no further code of /repo is modelled here. *)
From Coq Require Import NArith ZArith List Bool Lia Sorted.
From Coq Require Import ZifyBool ZifyNat ZifyN.
From Verif Require Import Base BaseFacts Str StrFacts Schema SchemaFacts Oa OaFacts Rows RowFacts Page PageFacts PageRw Db DbFacts Layout LayoutDb AcceptStr AcceptPage AcceptDb.
Import ListNotations.
Open Scope N_scope.

(** ** Spec *)
(** A text that cannot be taken for an ISRC, whatever stands behind it: UCS-2 text must not begin with the byte 3. *)
Definition clear_text (d : dstr) : Prop := match d with DSUcs2 us => exists u r, us = u :: r /\ u mod 256 <> 3 | _ => True end.
(** Page [i] holds all that belongs to it: its bytes, taken as a file of their own, are a page with the rows [ys], and all texts are clear. *)
Definition confined (b : build) (db : dbtype) (io : list N) (ps : N) (k : rkind) (i : N) (ys : list (list N * list dstr)) : Prop := exists w,
  len w = ps /\ has io (i * ps) w /\ (exists fin, page_in b ps db w 0 fin) /\ rows_in b db w ps k 0 ys /\ Forall (fun x => Forall clear_text (snd x)) ys.
(** The same bytes in two files. *)
Definition same_bytes (io io' : list N) (from upto : N) : Prop := upto <= len io /\ upto <= len io' /\ forall j, from <= j < upto -> getN io' j = getN io j.
(** Header and list of tables. *)
Definition header_kept (io io' : list N) : Prop := exists n, number io 8 4 = Some n /\ same_bytes io io' 0 (28 + 16 * n).

(** ** Bytes and numbers *)
Section window.
Variables (buf w : list N) (a : N).
Hypothesis HW : has buf a w.
Lemma win_len : a + len w <= len buf. Proof. now apply has_len. Qed.
Lemma win_get i : i < len w -> getN buf (a + i) = getN w i. Proof. apply has_get in HW as [_ H]. apply H. Qed.
Lemma win_some i x : getN w i = Some x -> getN buf (a + i) = Some x. Proof. intro H. rewrite win_get; [exact H|]. now apply getN_Some_lt in H. Qed.
Lemma win_num : forall n i x, number w i n = Some x -> number buf (a + i) n = Some x.
Proof.
  induction n as [|n IH]; intros i x H; [exact H|]. cbn [number] in *. destruct (getN w i) as [y|] eqn:E; [|discriminate]. rewrite (win_some _ _ E). destruct (number w (i + 1) n) as [z|] eqn:E2; [|discriminate]. apply IH in E2. now rewrite <- N.add_assoc, E2.
Qed.
Lemma win_num_eq n i : i + N.of_nat n <= len w -> number buf (a + i) n = number w i n.
Proof. intro H. destruct (number_le_total n w i H) as [x X]. rewrite X. now apply win_num. Qed.
Lemma win_has i s : has w i s -> has buf (a + i) s.
Proof. intro H. apply has_len in H as L. apply has_get in H as [_ H]. apply has_get. pose proof win_len. split; [lia|]. intros j Hj. rewrite <- N.add_assoc, win_get by lia. now apply H. Qed.
Lemma win_at n i x j : j = a + i -> number w i n = Some x -> number buf j n = Some x. Proof. intros -> H. now apply win_num. Qed.
Lemma win_get_at i x j : j = a + i -> getN w i = Some x -> getN buf j = Some x. Proof. intros -> H. now apply win_some. Qed.

(** ** Strings, rows *)
Lemma win_string b i d e : string_in b w i d e -> clear_text d -> string_in b buf (a + i) d (a + e).
Proof.
  intros H C. destruct H as [s H1 H2|n l s H1 H2 H3 H4 (H5 & H6 & H7)|n s H1 H2 H3 H4 H5|n us H1 H2 H3 H4 H5 H6].
  - replace (a + (i + 1 + len s)) with (a + i + 1 + len s) by lia. apply string_short; [now apply win_some|]. rewrite <- N.add_assoc. now apply win_has.
  - replace (a + (i + 6 + len s)) with (a + i + 6 + len s) by lia. apply string_isrc with n l; [now apply win_some|apply (win_at 2 (i + 1)); [lia|exact H2]|exact H3|apply (win_get_at (i + 3)); [lia|exact H4]|].
    split; [apply (win_get_at (i + 4)); [lia|exact H5]|]. split; [exact H6|]. replace (a + i + 4 + 1) with (a + (i + 4 + 1)) by lia. now apply win_has.
  - replace (a + (i + 4 + len s)) with (a + i + 4 + len s) by lia. apply string_ascii with n; [now apply win_some|apply (win_at 2 (i + 1)); [lia|exact H2]|exact H3|apply (win_get_at (i + 3)); [lia|exact H4]|].
    replace (a + i + 4) with (a + (i + 4)) by lia. now apply win_has.
  - replace (a + (i + 4 + 2 * len us)) with (a + i + 4 + 2 * len us) by lia. assert (units_at buf (a + i + 4) us) as U.
    { intros j u J. apply (win_at 2 (i + 4 + 2 * j)); [lia|]. now apply H6. }
    apply string_ucs2 with n; [now apply win_some|apply (win_at 2 (i + 1)); [lia|exact H2]|exact H3|apply (win_get_at (i + 3)); [lia|exact H4]| |exact U].
    intros (s & S1 & _). destruct C as (u & r & -> & C). specialize (H6 0 u (getN_0 _ _)). replace (i + 4 + 2 * 0) with (i + 4) in H6 by lia. cbn [number] in H6.
    destruct (getN w (i + 4)) as [x|] eqn:X; [|discriminate]. destruct (getN w (i + 4 + 1)) as [y|] eqn:Y; [|discriminate]. assert (u = x + 256 * y) as EU by (assert (x + 256 * (y + 256 * 0) = u) as EU by congruence; lia). apply win_some in X. replace (a + (i + 4)) with (a + i + 4) in X by lia. rewrite S1 in X. assert (x = 3) by congruence. apply C. symmetry. apply (N.mod_unique _ _ y); lia.
Qed.
Lemma win_items b : forall is i ns ds e, items_in b w is i ns ds e -> Forall clear_text ds -> items_in b buf is (a + i) ns ds (a + e).
Proof.
  induction is as [|[n| |n m|] is IH]; intros i ns ds e H C; cbn [items_in] in *.
  - destruct H as (-> & -> & ->). now repeat split.
  - destruct H as (x & ns' & H1 & -> & H). exists x, ns'. split; [now apply win_num|]. split; [reflexivity|]. rewrite <- N.add_assoc. now apply IH.
  - destruct H as (x & ns' & H1 & H2 & -> & H). exists x, ns'. split; [now apply win_some|]. split; [exact H2|]. split; [reflexivity|]. rewrite <- N.add_assoc. now apply IH.
  - destruct H as (H1 & H). split; [now apply win_num|]. rewrite <- N.add_assoc. now apply IH.
  - destruct H as (d & ds' & q & H1 & -> & H). inversion C; subst. exists d, ds', (a + q). split; [now apply win_string|]. split; [reflexivity|]. now apply IH.
Qed.
Lemma win_row b k i ns ds e : row_in b k w i ns ds e -> Forall clear_text ds -> row_in b k buf (a + i) ns ds (a + e).
Proof.
  unfold row_in. destruct (offsets_at k) as [[base n]|]; [|apply win_items]. intros (s & v & H1 & H2 & H3 & H4 & H5 & H6 & H7) C. exists s, v. rewrite <- !N.add_assoc.
  split; [now apply win_items|]. split; [now apply win_num|]. split; [exact H3|]. split; [now apply win_num|]. split; [exact H5|]. split; [lia|].
  intros j d J. destruct (H7 j d J) as (o & q & O1 & O2). exists o, (a + q). split; [apply (win_at v (i + base + N.of_nat v * (j + 1))); [lia|exact O1]|]. rewrite <- N.add_assoc. apply win_string; [exact O2|]. rewrite Forall_forall in C. apply C. unfold getN in J. now apply nth_error_In in J.
Qed.

(** ** Pages *)
Lemma win_present ps g o : len w = ps -> 36 * g <= ps -> (present_at buf (a + ps) g o <-> present_at w ps g o).
Proof.
  intros HL HG. unfold present_at, slot_present, slot_offset. split; intros (s & H1 & (fl & H2 & H3) & H4); exists s; (split; [exact H1|]).
  - pose proof (N.mod_lt s 16). replace (a + ps - 36 * (s / 16) - 4) with (a + (ps - 36 * (s / 16) - 4)) in H2 by lia. rewrite win_num_eq in H2 by lia. split; [now exists fl|].
    replace (a + ps - 36 * (s / 16) - 6 - 2 * (s mod 16)) with (a + (ps - 36 * (s / 16) - 6 - 2 * (s mod 16))) in H4 by lia. now rewrite win_num_eq in H4 by lia.
  - pose proof (N.mod_lt s 16). replace (a + ps - 36 * (s / 16) - 4) with (a + (ps - 36 * (s / 16) - 4)) by lia. rewrite win_num_eq by lia. split; [now exists fl|].
    replace (a + ps - 36 * (s / 16) - 6 - 2 * (s mod 16)) with (a + (ps - 36 * (s / 16) - 6 - 2 * (s mod 16))) by lia. now rewrite win_num_eq by lia.
Qed.
Lemma win_page b db ps k ys : len w = ps -> (exists fin, page_in b ps db w 0 fin) -> rows_in b db w ps k 0 ys -> Forall (fun x => Forall clear_text (snd x)) ys ->
  (exists fin, page_in b ps db buf a fin) /\ rows_in b db buf ps k a ys.
Proof.
  intros HL (fin & H0 & f & F & H) (f' & F' & R) C. assert (f' = f) as -> by congruence. clear F'. pose proof win_len as WL. apply (win_num 4 0) in H0. rewrite N.add_0_r in H0. apply win_some in F. rewrite N.add_0_l in *. split.
  - exists (a + fin). split; [exact H0|]. exists f. split; [exact F|]. destruct (N.testbit f 6).
    + destruct H as (I1 & I2 & n & I3 & I4 & I5). split; [now apply win_num|]. split; [now apply win_num|]. exists n. split; [now apply win_num|]. lia.
    + destruct H as (t & c & g & os & D1 & D2 & D3 & D4 & D5 & D6 & D7 & D8 & D9 & D10). rewrite N.add_0_l in *. destruct R as (c' & os' & R1 & R2 & R3 & R4 & R5). assert (c' = c) as -> by congruence.
      assert (36 * g <= ps) as G by lia. subst fin. exists t, c, g, os. split; [now apply win_num|]. split; [now apply win_num|]. split; [lia|]. split; [lia|]. split; [exact D5|]. split; [lia|]. split; [exact D7|]. split.
      { intro o. rewrite win_present by assumption. apply D8. }
      split; [exact D9|]. intros o k' O K. assert (In o os') as O' by (apply R3; rewrite <- D5; now apply D8). destruct R4 as [->|(t' & T1 & T2)]; [destruct O'|]. rewrite N.add_0_l in T1. assert (t' = t) as -> by congruence. rewrite (type_unique db t k' k K T2). clear -HW C R5 O'.
      induction R5 as [|o' x os' ys (q & Q) _ IH]; [destruct O'|]. inversion C; subst. destruct O' as [->|O']; [|now apply IH]. exists (fst x), (snd x), (a + q). rewrite <- N.add_assoc. now apply win_row.
  - exists f. split; [exact F|]. destruct (N.testbit f 6); [exact R|]. destruct H as (t & c & g & os & D1 & D2 & D3 & D4 & D5 & D6 & D7 & D8 & D9 & D10). rewrite N.add_0_l in *. destruct R as (c' & os' & R1 & R2 & R3 & R4 & R5). rewrite N.add_0_l in *. assert (c' = c) as -> by congruence.
    exists c, os'. split; [now apply win_num|]. split; [exact R2|]. split.
    { intro o. rewrite win_present; [apply R3|exact HL|]. lia. }
    split.
    { destruct R4 as [->|(t' & T1 & T2)]; [now left|]. right. exists t'. split; [now apply win_num|exact T2]. }
    clear -HW C R5. induction R5 as [|o' x os' ys (q & Q) _ IH]; [constructor|]. inversion C; subst. constructor; [|now apply IH]. exists (a + q). rewrite <- N.add_assoc. now apply win_row.
Qed.
End window.

(** ** Files *)
Lemma kept_num io io' from upto : same_bytes io io' from upto -> forall n i, from <= i -> i + N.of_nat n <= upto -> number io' i n = number io i n.
Proof. intros (_ & _ & H). induction n as [|n IH]; intros i L1 L2; [reflexivity|]. cbn [number]. rewrite H, IH by lia. reflexivity. Qed.
Lemma kept_has io io' from upto w : same_bytes io io' from upto -> has io from w -> upto = from + len w -> has io' from w.
Proof. intros (H1 & H2 & H3) H ->. apply has_get in H as [_ H]. apply has_get. split; [lia|]. intros i Hi. rewrite H3 by lia. now apply H. Qed.
Lemma kept_table io io' db k first last : header_kept io io' -> table_at db io k first last -> table_at db io' k first last.
Proof.
  intros (n & N8 & K) (n' & t & x & T1 & T2 & T3 & T4 & T5 & T6 & T7). assert (n' = n) as -> by congruence. pose proof (kept_num io io' _ _ K) as E. exists n, t, x.
  rewrite !E by lia. repeat (split; [assumption|]). intros t' x' Ht. rewrite E by lia. now apply T7.
Qed.
Lemma confined_page b db io ps k i ys : confined b db io ps k i ys -> (exists fin, page_in b ps db io (i * ps) fin) /\ rows_in b db io ps k (i * ps) ys.
Proof. intros (w & H1 & H2 & H3 & H4 & H5). now apply (win_page io w). Qed.
Lemma confined_kept b db io io' ps k i ys : confined b db io ps k i ys -> same_bytes io io' (i * ps) (i * ps + ps) -> confined b db io' ps k i ys.
Proof. intros (w & H1 & H2 & H) K. exists w. split; [exact H1|]. split; [|exact H]. apply (kept_has io io' _ _ _ K H2). lia. Qed.
Lemma kept_pages b db io io' ps k last : 40 <= ps -> header_kept io io' -> forall first l, pages_from b db io ps last first l -> forall xss, Forall2 (confined b db io ps k) l xss -> Forall (fun i => same_bytes io io' (i * ps) (i * ps + ps)) l ->
  pages_from b db io' ps last first l.
Proof.
  intros HP (n & N8 & K) first l H. assert (forall i ys, page_at b db io ps i -> confined b db io ps k i ys -> same_bytes io io' (i * ps) (i * ps + ps) -> page_at b db io' ps i) as PA.
  { intros i ys (lim & fin & L & R & _) C KI. destruct (confined_page _ _ _ _ _ _ _ (confined_kept _ _ _ _ _ _ _ _ C KI)) as [[fin' P] _]. exists lim, fin'. rewrite (kept_num _ _ _ _ K) by lia. split; [exact L|]. now split. }
  induction H as [HA|i j l HN HA HJ HI _ IH]; intros xss C KP; inversion C as [|? ys ? xss' C1 C2]; subst; inversion KP; subst.
  - apply pages_last. now apply (PA last ys).
  - apply pages_step with j; [exact HN|now apply (PA i ys)| |exact HI|now apply (IH xss')]. match goal with X : same_bytes io io' (i * ps) _ |- _ => rewrite (kept_num _ _ _ _ X) by lia end. exact HJ.
Qed.
Lemma kept_says b db io io' ps k first last l xss : 40 <= ps -> header_kept io io' -> table_at db io k first last -> pages_from b db io ps last first l -> Forall2 (confined b db io ps k) l xss ->
  Forall (fun i => same_bytes io io' (i * ps) (i * ps + ps)) l -> table_says b db io' ps k (concat xss).
Proof.
  intros HP HH HT HC C KP. exists first, last, l, xss. split; [now apply (kept_table io)|]. split; [now apply (kept_pages b db io io' ps k last HP HH first l HC xss)|]. split; [|reflexivity]. clear HT HC.
  induction C as [|i ys l xss C1 _ IH]; [constructor|]. inversion KP; subst. constructor; [|now apply IH]. now apply confined_page, (confined_kept b db io).
Qed.
Lemma kept_refl io n : number io 8 4 = Some n -> 28 + 16 * n <= len io -> header_kept io io.
Proof. intros N8 L. exists n. split; [exact N8|]. now repeat split. Qed.
Lemma header_kept_sym io io' : header_kept io io' -> header_kept io' io.
Proof. intros (n & N8 & K). exists n. split; [rewrite (kept_num _ _ _ _ K) by lia; exact N8|]. destruct K as (K1 & K2 & K3). split; [exact K2|]. split; [exact K1|]. intros j Hj. symmetry. now apply K3. Qed.
