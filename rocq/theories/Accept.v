(** * Which entries of analysis files are accepted

    Facts that connect the readers of src/anlz.rs (modelled in [Anlz.v]) with numbers at places in a file; no further code of /repo is modelled here. *)
From Coq Require Import NArith ZArith List Bool String Lia.
From Coq Require Import ZifyBool ZifyNat ZifyN.
From Verif Require Import Base BaseFacts Utf Schema SchemaFacts Xor Anlz AnlzFacts AnlzSections AnlzPanic Layout LayoutAnlz.
Import ListNotations.
Open Scope N_scope.

(** ** Field lists of numbers and enums *)
(** The enums in the list have known codes. *)
Fixpoint known (fs : list field) (buf : list N) (pos : N) : Prop :=
  match fs with
  | [] => True
  | FEnum e n codes :: r => (exists c, number_of e buf pos n = Some c /\ In c codes) /\ known r buf (pos + N.of_nat n)
  | f :: r => known r buf (pos + field_size f)
  end.
Lemma rd_int_total e n buf pos : pos + N.of_nat n <= len buf -> exists v, rd_int e n buf pos = Ok (v, pos + N.of_nat n).
Proof.
  intro H. destruct e; unfold rd_int, rd_le, rd_be, bind, rd_bytes, ret; destruct (N.of_nat n =? 0) eqn:E; try (replace (pos + N.of_nat n) with pos by lia; eexists; reflexivity);
    replace (pos + N.of_nat n <=? len buf) with true by lia; eexists; reflexivity.
Qed.
Lemma plain_accepts buf : forall fs pos, forallb is_num fs = true -> fields_wfb fs = true -> pos <= len buf ->
  ((exists vs p, rd_plain fs buf pos = Ok (vs, p)) <-> pos + fields_size fs <= len buf /\ known fs buf pos).
Proof.
  unfold rd_plain. induction fs as [|f fs IH]; intros pos HN HW HP; [split; [intros _; cbn; split; [lia|exact I]|intros _; cbn; unfold ret; now eexists _, _]|].
  pose proof HN as HN0. pose proof HW as HW0. cbn [forallb] in HN. apply andb_true_iff in HN as [N1 N2]. unfold fields_wfb in HW. cbn [forallb] in HW. apply andb_true_iff in HW as [W1 W2]. fold (fields_wfb fs) in W2.
  change (fields_size (f :: fs)) with (field_size f + fields_size fs). split.
  - intros (vs & p & H). pose proof (plain_end _ _ _ _ _ HN0 HW0 HP H) as [HE HL]. change (fields_size (f :: fs)) with (field_size f + fields_size fs) in HE. split; [lia|]. cbn [rd_fields] in H.
    apply bind_inv in H as (v & p1 & R & H). apply bind_inv in H as (ws & p2 & R2 & _). pose proof (rd_field_number _ _ _ _ _ _ W1 R) as RN.
    destruct f as [e n|e n m|e n codes|e n codes|n|]; try discriminate; cbn [known field_size] in *; destruct RN as (x & _ & X & ->).
    + apply (IH (pos + N.of_nat n) N2 W2 ltac:(lia)). now exists ws, p2.
    + split; [|apply (IH (pos + N.of_nat n) N2 W2 ltac:(lia)); now exists ws, p2]. exists x. split; [exact X|]. cbn [rd_field field_wfb] in *. apply bind_inv in R as (y & q & R & G). apply rd_int_number in R as [R _]; [|lia].
      apply bind_inv in G as (u & q2 & G & _). apply guard_inv in G as [G _]. assert (x = y) as -> by congruence. now apply mem_in.
  - intros [HL HK]. cbn [rd_fields]. destruct f as [e n|e n m|e n codes|e n codes|n|]; try discriminate; cbn [known field_size rd_field field_wfb] in *; destruct (rd_int_total e n buf pos ltac:(lia)) as [x X].
    + destruct (proj2 (IH (pos + N.of_nat n) N2 W2 ltac:(lia))) as (ws & p & E); [split; [lia|exact HK]|]. unfold bind in *. rewrite X. unfold ret. rewrite E. now eexists _, _.
    + destruct HK as [(c & C1 & C2) HK]. destruct (proj2 (IH (pos + N.of_nat n) N2 W2 ltac:(lia))) as (ws & p & E); [split; [lia|exact HK]|]. pose proof X as Y. apply rd_int_number in Y as [Y _]; [|lia]. assert (c = x) as -> by congruence.
      unfold bind in *. rewrite X. unfold guard. rewrite (proj2 (mem_in x codes)) by exact C2. unfold ret. rewrite E. now eexists _, _.
Qed.
Lemma byte_number buf pos c : number_be buf pos 1 = Some c <-> getN buf pos = Some c.
Proof. cbn [number_be]. change (N.of_nat 0) with 0. rewrite N.add_0_r. destruct (getN buf pos) as [a|]; [|easy]. replace (a + 256 * 0) with a by lia. easy. Qed.
(** ** Headers and counts *)
Lemma header_accepts buf pos : (exists h, rd_header buf pos = Ok (h, pos + 12)) <-> pos + 12 <= len buf.
Proof.
  split.
  - intros [h H]. unfold rd_header in H. apply bind_inv in H as (k & p1 & R1 & H). apply bind_inv in H as (s & p2 & R2 & H). apply bind_inv in H as (t & p3 & R3 & H). apply ret_inv in H as [_ <-]. now apply rd_be_at in R3 as (_ & _ & R3).
  - intro H. unfold rd_header, rd_ckind, bind. destruct (rd_int_total BE 4 buf pos) as [x X]; [lia|]. cbn [rd_int] in X. change (N.of_nat 4) with 4 in X. rewrite X. unfold ret. destruct (rd_int_total BE 4 buf (pos + 4)) as [y Y]; [lia|]. cbn [rd_int] in Y. change (N.of_nat 4) with 4 in Y. rewrite Y.
    destruct (rd_int_total BE 4 buf (pos + 4 + 4)) as [z Z]; [lia|]. cbn [rd_int] in Z. change (N.of_nat 4) with 4 in Z. rewrite Z. replace (pos + 4 + 4 + 4) with (pos + 12) by lia. now eexists.
Qed.
(** A number of entries of the same size. *)
Lemma count_accepts {A} (dec : parser A) (good : N -> Prop) buf w : 0 < w -> (forall pos x p, dec buf pos = Ok (x, p) -> p = pos + w) ->
  (forall pos, pos <= len buf -> ((exists x p, dec buf pos = Ok (x, p)) <-> pos + w <= len buf /\ good pos)) ->
  forall n pos, pos <= len buf -> ((exists l p, rd_count n dec buf pos = Ok (l, p)) <-> pos + w * N.of_nat n <= len buf /\ forall i, i < N.of_nat n -> good (pos + w * i)).
Proof.
  intros HW HP HD. induction n as [|n IH]; intros pos HL; cbn [rd_count].
  - split; [intros _; split; [lia|intros i Hi; lia]|intros _; unfold ret; now eexists _, _].
  - assert (w * N.of_nat (S n) = w + w * N.of_nat n) as ES by (rewrite Nat2N.inj_succ, N.mul_succ_r; lia). rewrite ES. split.
    + intros (l & p & H). apply bind_inv in H as (x & p1 & R & H). apply bind_inv in H as (xs & p2 & R2 & _). pose proof (HP _ _ _ R) as ->. destruct (proj1 (HD pos HL)) as [D1 D2]; [eauto|].
      destruct (proj1 (IH (pos + w) D1)) as [I1 I2]; [eauto|]. split; [lia|]. intros i Hi. destruct (N.eq_dec i 0) as [->|NE]; [now replace (pos + w * 0) with pos by lia|].
      replace (w * i) with (w + w * (i - 1)) by (rewrite <- (N.mul_1_r w) at 1; rewrite <- N.mul_add_distr_l; f_equal; lia). rewrite N.add_assoc. apply I2. lia.
    + intros [H1 H2]. destruct (proj2 (HD pos HL)) as (x & p & R); [split; [lia|]; specialize (H2 0 ltac:(lia)); now replace (pos + w * 0) with pos in H2 by lia|]. pose proof (HP _ _ _ R) as ->.
      destruct (proj2 (IH (pos + w) ltac:(lia))) as (l & q & R2).
      { split; [lia|]. intros i Hi. specialize (H2 (i + 1) ltac:(lia)). rewrite N.mul_add_distr_l, N.mul_1_r in H2. now replace (pos + w + w * i) with (pos + (w * i + w)) by lia. }
      unfold bind. rewrite R, R2. unfold ret. now eexists _, _.
Qed.
(** ** Entries *)
Definition cue_code (buf : list N) (pos : N) : Prop := getN buf pos = Some 1 \/ getN buf pos = Some 2.
Definition color_code (buf : list N) (pos : N) : Prop := exists c, getN buf pos = Some c /\ c <= 8.
Lemma known_cue buf pos : known cue_fields buf pos <-> cue_code buf (pos + 16).
Proof.
  unfold cue_fields, cue_type, cue_code. cbn [known field_size number_of]. replace (pos + N.of_nat 4 + N.of_nat 4 + N.of_nat 4 + N.of_nat 2 + N.of_nat 2) with (pos + 16) by lia. split.
  - intros [(c & C1 & C2) _]. apply byte_number in C1. destruct C2 as [<-|[<-|[]]]; auto.
  - intros H. split; [|exact I]. destruct H as [H|H]; apply byte_number in H; eexists; (split; [exact H|cbn; auto]).
Qed.
Lemma known_ecue buf pos : known ecue_fields buf pos <-> cue_code buf (pos + 4) /\ color_code buf (pos + 16).
Proof.
  unfold ecue_fields, cue_type, cue_code, color_code. cbn [known field_size number_of]. replace (pos + N.of_nat 4 + N.of_nat 1 + N.of_nat 1 + N.of_nat 2 + N.of_nat 4 + N.of_nat 4) with (pos + 16) by lia. replace (pos + N.of_nat 4) with (pos + 4) by lia. split.
  - intros [(c & C1 & C2) [(e & E1 & E2) _]]. apply byte_number in C1. apply byte_number in E1. split; [destruct C2 as [<-|[<-|[]]]; auto|]. exists e. split; [exact E1|]. cbn [In] in E2. lia.
  - intros [H (e & E1 & E2)]. apply byte_number in E1. split; [destruct H as [H|H]; apply byte_number in H; eexists; (split; [exact H|cbn; auto])|]. split; [|exact I]. exists e. split; [exact E1|]. cbn [In]. lia.
Qed.
Lemma known_song buf pos : known song_fields buf pos <-> (exists m, number_be buf pos 2 = Some m /\ 1 <= m <= 3) /\ color_code buf (pos + 12).
Proof.
  unfold song_fields, mood, bank, color_code. cbn [known field_size number_of]. replace (pos + N.of_nat 2 + N.of_nat 4 + N.of_nat 2 + N.of_nat 2 + N.of_nat 2) with (pos + 12) by lia. split.
  - intros [(c & C1 & C2) [(e & E1 & E2) _]]. apply byte_number in E1. split; [exists c; split; [exact C1|]; cbn [In] in C2; lia|]. exists e. split; [exact E1|]. cbn [In] in E2. lia.
  - intros [(c & C1 & C2) (e & E1 & E2)]. apply byte_number in E1. split; [exists c; split; [exact C1|]; cbn [In]; lia|]. split; [|exact I]. exists e. split; [exact E1|]. cbn [In]. lia.
Qed.
Lemma cue_accepts buf pos : bytes_ok buf -> pos <= len buf -> ((exists c p, rd_cue buf pos = Ok (c, p)) <-> pos + 56 <= len buf /\ cue_code buf (pos + 28)).
Proof.
  intros HB HP. split.
  - intros (c & p & H). pose proof (cue_read _ _ _ _ HB H) as (_ & -> & HL). split; [lia|]. unfold rd_cue in H. apply bind_inv in H as (h & p1 & R1 & H). apply bind_inv in H as (vs & p2 & R2 & _). apply header_read in R1 as (_ & -> & HL1); [|exact HB].
    destruct (proj1 (plain_accepts buf cue_fields (pos + 12) eq_refl eq_refl HL1)) as [_ K]; [eauto|]. apply known_cue in K. now replace (pos + 12 + 16) with (pos + 28) in K by lia.
  - intros [HL HC]. destruct (proj2 (header_accepts buf pos)) as [h H1]; [lia|]. destruct (proj2 (plain_accepts buf cue_fields (pos + 12) eq_refl eq_refl ltac:(lia))) as (vs & p & H2).
    { change (fields_size cue_fields) with 44. split; [lia|]. apply known_cue. now replace (pos + 12 + 16) with (pos + 28) by lia. }
    unfold rd_cue, bind. rewrite H1, H2. unfold ret. now eexists _, _.
Qed.
Lemma ecue_codes b buf pos c p : bytes_ok buf -> rd_ecue b buf pos = Ok (c, p) -> cue_code buf (pos + 16) /\ color_code buf (pos + 28).
Proof.
  intros HB H. unfold rd_ecue in H. apply bind_inv in H as (h & p1 & R1 & H). apply bind_inv in H as (vs & p2 & R2 & _). apply header_read in R1 as (_ & -> & HL1); [|exact HB].
  destruct (proj1 (plain_accepts buf ecue_fields (pos + 12) eq_refl eq_refl HL1)) as [_ K]; [eauto|]. apply known_ecue in K. now replace (pos + 12 + 4) with (pos + 16) in K by lia; replace (pos + 12 + 16) with (pos + 28) in K by lia.
Qed.
(** Without a comment. *)
Lemma ecue_accepts b buf pos t : bytes_ok buf -> number_be buf (pos + 8) 4 = Some t -> number_be buf (pos + 40) 4 = Some 0 ->
  ((exists c p, rd_ecue b buf pos = Ok (c, p)) <-> pos + N.max 68 t <= len buf /\ cue_code buf (pos + 16) /\ color_code buf (pos + 28)).
Proof.
  intros HB HT H0. split.
  - intros (c & p & H). destruct (ecue_codes _ _ _ _ _ HB H) as [K1 K2]. split; [|easy]. pose proof (ecue_read _ _ _ _ _ HB H) as [_ HL]. unfold rd_ecue in H. apply bind_inv in H as (h & p1 & R1 & H). apply bind_inv in H as (vs & p2 & R2 & H).
    apply bind_inv in H as (s & p3 & R3 & H). apply bind_inv in H as (ws & p4 & R4 & H). apply bind_inv in H as (n & p5 & R5 & H). apply bind_inv in H as (tr & p6 & R6 & H). apply ret_inv in H as [_ <-].
    apply header_read in R1 as ((_ & _ & R1) & -> & HL1); [|exact HB]. rewrite HT in R1. injection R1 as ->. apply plain_end in R2 as [-> HL2]; [|reflexivity|reflexivity|exact HL1]. change (fields_size ecue_fields) with 28 in *. replace (pos + 12 + 28) with (pos + 40) in * by lia.
    unfold rd_comment in R3. apply bind_inv in R3 as (m & q & R3 & E). apply rd_be_at in R3 as (R3 & -> & HL3); [|discriminate]. rewrite H0 in R3. injection R3 as <-. cbn [N.eqb] in E. apply ret_inv in E as [<- <-]. change (N.of_nat 4) with 4 in *.
    apply plain_end in R4 as [-> HL4]; [|reflexivity|reflexivity|exact HL3]. change (fields_size ecue_more_fields) with 24 in *. apply lift_eq in R5 as [R5 <-]. assert (n = h_total h - 68) as -> by (destruct b; unfold trailing_size, byte_len in R5; cbn in R5; congruence).
    apply rd_bytes_at in R6 as (_ & _ & -> & HL6); [|exact HL4]. lia.
  - intros (HL & K1 & K2). destruct (proj2 (header_accepts buf pos)) as [h H1]; [lia|]. pose proof (header_read _ _ _ _ HB H1) as ((_ & _ & HT') & _). rewrite HT in HT'. injection HT' as ->.
    destruct (proj2 (plain_accepts buf ecue_fields (pos + 12) eq_refl eq_refl ltac:(lia))) as (vs & p & H2).
    { change (fields_size ecue_fields) with 28. split; [lia|]. apply known_ecue. now replace (pos + 12 + 4) with (pos + 16) by lia; replace (pos + 12 + 16) with (pos + 28) by lia. }
    pose proof H2 as H2'. apply plain_end in H2' as [-> _]; [|reflexivity|reflexivity|lia]. change (fields_size ecue_fields) with 28 in *. replace (pos + 12 + 28) with (pos + 40) in * by lia.
    assert (rd_comment buf (pos + 40) = Ok ([], pos + 44)) as H3.
    { unfold rd_comment, bind. destruct (rd_int_total BE 4 buf (pos + 40)) as [x X]; [lia|]. pose proof X as Y. apply rd_int_number in Y as [Y _]; [|discriminate]. cbn [number_of rd_int] in *. rewrite H0 in Y. injection Y as <-. rewrite X. cbn [N.eqb]. unfold ret. now replace (pos + 40 + N.of_nat 4) with (pos + 44) by lia. }
    destruct (proj2 (plain_accepts buf ecue_more_fields (pos + 44) eq_refl eq_refl ltac:(lia))) as (ws & q & H4); [change (fields_size ecue_more_fields) with 24; split; [lia|exact I]|].
    pose proof H4 as H4'. apply plain_end in H4' as [-> _]; [|reflexivity|reflexivity|lia]. change (fields_size ecue_more_fields) with 24 in *.
    assert (trailing_size b h [] = Ok (h_total h - 68)) as H5 by (now destruct b). unfold rd_ecue, bind. rewrite H1, H2, H3, H4. unfold lift. rewrite H5. unfold rd_bytes. destruct (h_total h - 68 =? 0) eqn:E; [unfold ret; now eexists _, _|].
    replace (pos + 44 + 24 + (h_total h - 68) <=? len buf) with true by lia. unfold ret. now eexists _, _.
Qed.
Lemma song_accepts buf pos n : pos <= len buf -> ((exists d p, rd_song_data n buf pos = Ok (d, p)) <->
  pos + 14 + 24 * n <= len buf /\ (exists m, number_be buf pos 2 = Some m /\ 1 <= m <= 3) /\ color_code buf (pos + 12)).
Proof.
  intro HP. assert (forall q x p, rd_plain phrase_fields buf q = Ok (x, p) -> p = q + 24) as HW.
  { intros q x p H. assert (q <= len buf) as HQ. { unfold rd_plain, phrase_fields in H. cbn [rd_fields] in H. apply bind_inv in H as (v & p1 & R & _). cbn [rd_field] in R. apply bind_inv in R as (y & p2 & R & _). cbn [rd_int] in R. apply rd_be_at in R as (_ & -> & L); [lia|discriminate]. }
    apply plain_end in H as [-> _]; [reflexivity|reflexivity|reflexivity|exact HQ]. }
  assert (forall q, q <= len buf -> ((exists x p, rd_plain phrase_fields buf q = Ok (x, p)) <-> q + 24 <= len buf /\ True)) as HD by (intros q HQ; now rewrite (plain_accepts buf phrase_fields q eq_refl eq_refl HQ)).
  split.
  - intros (d & p & H). unfold rd_song_data in H. apply bind_inv in H as (vs & p1 & R1 & H). apply bind_inv in H as (ps & p2 & R2 & _). destruct (proj1 (plain_accepts buf song_fields pos eq_refl eq_refl HP)) as [L K]; [eauto|]. apply known_song in K.
    apply plain_end in R1 as [-> _]; [|reflexivity|reflexivity|exact HP]. change (fields_size song_fields) with 14 in *. destruct (proj1 (count_accepts _ (fun _ => True) buf 24 ltac:(lia) HW HD (N.to_nat n) (pos + 14) L)) as [X _]; [eauto|]. split; [lia|exact K].
  - intros [L K]. apply known_song in K. destruct (proj2 (plain_accepts buf song_fields pos eq_refl eq_refl HP)) as (vs & p & H1); [change (fields_size song_fields) with 14; split; [lia|exact K]|].
    pose proof H1 as H1'. apply plain_end in H1' as [-> _]; [|reflexivity|reflexivity|exact HP]. change (fields_size song_fields) with 14 in *.
    destruct (proj2 (count_accepts _ (fun _ => True) buf 24 ltac:(lia) HW HD (N.to_nat n) (pos + 14) ltac:(lia))) as (ps & q & H2); [split; [lia|easy]|]. unfold rd_song_data, bind. rewrite H1, H2. unfold ret. now eexists _, _.
Qed.
(** ** Sections *)
Lemma kind_is buf pos s k h p : bytes_ok buf -> In (s, k) kind_letters -> has buf pos (letters s) -> rd_header buf pos = Ok (h, p) -> h_kind h = k.
Proof.
  intros HB HI HS H. apply header_read in H as ((HK & _) & _); [|exact HB]. assert (forall s1 s2 k1 k2, In (s1, k1) kind_letters -> In (s2, k2) kind_letters -> letters s1 = letters s2 -> k1 = k2) as HU.
  { intros s1 s2 k1 k2 I1 I2 E. unfold kind_letters in I1, I2. repeat (destruct I1 as [I1|I1]; [injection I1 as <- <-; repeat (destruct I2 as [I2|I2]; [injection I2 as <- <-; (reflexivity || (vm_compute in E; discriminate))|]); destruct I2|]). destruct I1. }
  assert (forall s1 k1, In (s1, k1) kind_letters -> len (letters s1) = 4) as HL. { intros s1 k1 I1. unfold kind_letters in I1. repeat (destruct I1 as [I1|I1]; [injection I1 as <- <-; reflexivity|]). destruct I1. }
  assert (forall k', (exists s', In (s', k') kind_letters /\ has buf pos (letters s')) -> k' = k) as HX.
  { intros k' (s' & I' & H'). apply (HU s' s); [exact I'|exact HI|]. apply (has_inj buf pos); [exact H'|exact HS|]. now rewrite (HL s' k'), (HL s k). }
  destruct (h_kind h); cbn [kind_at] in HK; try (now apply HX). destruct HK as [_ HK]. now destruct (HK s k HI).
Qed.
Lemma number_total buf pos n : pos + N.of_nat n <= len buf -> exists x, number_be buf pos n = Some x.
Proof. intro H. destruct n as [|n]; [now eexists|]. destruct (rd_int_total BE (S n) buf pos H) as [x X]. apply rd_int_number in X as [X _]; [|discriminate]. now exists x. Qed.
Lemma rd_be_at_total n buf pos x : n <> 0%nat -> pos + N.of_nat n <= len buf -> number_be buf pos n = Some x -> rd_be n buf pos = Ok (x, pos + N.of_nat n).
Proof. intros HN HL HX. destruct (rd_int_total BE n buf pos HL) as [y Y]. pose proof Y as Z. apply rd_int_number in Z as [Z _]; [|exact HN]. cbn [number_of rd_int] in *. congruence. Qed.
Lemma rd_cue_list_type buf pos t p : rd_field (fail EIo) cue_list_type buf pos = Ok (t, p) -> p = pos + 4 /\ p <= len buf /\ (number_be buf pos 4 = Some 0 \/ number_be buf pos 4 = Some 1).
Proof.
  intro H. unfold cue_list_type in H. cbn [rd_field rd_int] in H. apply bind_inv in H as (x & q & R & H). apply rd_be_at in R as (R & -> & HL); [|discriminate]. apply bind_inv in H as (u & q2 & G & H). apply ret_inv in H as [_ <-]. apply guard_inv in G as [G <-].
  apply mem_in in G. split; [reflexivity|]. split; [exact HL|]. destruct G as [<-|[<-|[]]]; auto.
Qed.
Lemma cue_list_accepts b buf pos n : bytes_ok buf -> has buf pos (letters "PCOB") -> number_be buf (pos + 18) 2 = Some n ->
  ((exists s p, rd_section b buf pos = Ok (s, p)) <-> pos + 24 + 56 * n <= len buf /\ (number_be buf (pos + 12) 4 = Some 0 \/ number_be buf (pos + 12) 4 = Some 1) /\ forall i, i < n -> cue_code buf (pos + 24 + 56 * i + 28)).
Proof.
  intros HB HS HN. assert (forall q, q <= len buf -> ((exists x p, rd_cue buf q = Ok (x, p)) <-> q + 56 <= len buf /\ cue_code buf (q + 28))) as HD by (intros q HQ; now apply cue_accepts).
  assert (forall q x p, rd_cue buf q = Ok (x, p) -> p = q + 56) as HW by (intros q x p H; now apply cue_read in H as (_ & H & _)). split.
  - intros (s & p & H). unfold rd_section in H. apply bind_inv in H as (h & p1 & R1 & H). apply bind_inv in H as (c & p2 & R2 & _). pose proof (kind_is buf pos "PCOB" KCueList h p1 HB ltac:(cbn; auto 20) HS R1) as HK. apply header_read in R1 as (_ & -> & HL1); [|exact HB].
    unfold rd_content in R2. rewrite HK in R2. unfold rd_cue_list in R2. apply bind_inv in R2 as (t & q1 & T & R2). apply rd_cue_list_type in T as (-> & _ & T). apply bind_inv in R2 as (u & q2 & U & R2). apply rd_be_at in U as (_ & -> & _); [|discriminate].
    apply bind_inv in R2 as (m & q3 & M & R2). apply rd_be_at in M as (M & -> & _); [|discriminate]. apply bind_inv in R2 as (mc & q4 & C & R2). apply rd_be_at in C as (_ & -> & HL4); [|discriminate]. apply bind_inv in R2 as (cs & q5 & CS & _).
    change (N.of_nat 4) with 4 in *. change (N.of_nat 2) with 2 in *. replace (pos + 12 + 4 + 2) with (pos + 18) in * by lia. rewrite HN in M. injection M as <-. replace (pos + 18 + 2 + 4) with (pos + 24) in * by lia.
    destruct (proj1 (count_accepts _ _ buf 56 ltac:(lia) HW HD (N.to_nat n) (pos + 24) HL4)) as [X1 X2]; [eauto|]. rewrite N2Nat.id in *. easy.
  - intros (HL & HT & HC). destruct (proj2 (header_accepts buf pos)) as [h H1]; [lia|]. pose proof (kind_is buf pos "PCOB" KCueList h _ HB ltac:(cbn; auto 20) HS H1) as HK.
    destruct (proj2 (count_accepts _ _ buf 56 ltac:(lia) HW HD (N.to_nat n) (pos + 24) ltac:(lia))) as (cs & q & H2); [rewrite N2Nat.id; now split|].
    assert (exists t, rd_field (fail EIo) cue_list_type buf (pos + 12) = Ok (t, pos + 16)) as [t H3].
    { unfold cue_list_type. cbn [rd_field rd_int]. unfold bind. destruct HT as [HT|HT]; (rewrite (rd_be_at_total 4 buf (pos + 12) _ ltac:(discriminate) ltac:(lia) HT)); replace (pos + 12 + N.of_nat 4) with (pos + 16) by lia; now eexists. }
    destruct (number_total buf (pos + 16) 2 ltac:(lia)) as [u U]. destruct (number_total buf (pos + 20) 4 ltac:(lia)) as [mc C].
    unfold rd_section, bind. rewrite H1. unfold rd_content. rewrite HK. unfold rd_cue_list, bind. rewrite H3, (rd_be_at_total 2 buf (pos + 16) u ltac:(discriminate) ltac:(lia) U). replace (pos + 16 + N.of_nat 2) with (pos + 18) by lia.
    rewrite (rd_be_at_total 2 buf (pos + 18) n ltac:(discriminate) ltac:(lia) HN). replace (pos + 18 + N.of_nat 2) with (pos + 20) by lia. rewrite (rd_be_at_total 4 buf (pos + 20) mc ltac:(discriminate) ltac:(lia) C). replace (pos + 20 + N.of_nat 4) with (pos + 24) by lia. rewrite H2. unfold ret. now eexists _, _.
Qed.
Lemma beat_grid_accepts b buf pos n : bytes_ok buf -> has buf pos (letters "PQTZ") -> number_be buf (pos + 20) 4 = Some n -> ((exists s p, rd_section b buf pos = Ok (s, p)) <-> pos + 24 + 8 * n <= len buf).
Proof.
  intros HB HS HN. assert (forall q, q <= len buf -> ((exists x p, rd_plain beat_fields buf q = Ok (x, p)) <-> q + 8 <= len buf /\ True)) as HD by (intros q HQ; now rewrite (plain_accepts buf beat_fields q eq_refl eq_refl HQ)).
  assert (forall q x p, rd_plain beat_fields buf q = Ok (x, p) -> p = q + 8) as HW.
  { intros q x p H. assert (q <= len buf) as HQ. { unfold rd_plain, beat_fields in H. cbn [rd_fields] in H. apply bind_inv in H as (v & p1 & R & _). cbn [rd_field] in R. apply bind_inv in R as (y & p2 & R & _). cbn [rd_int] in R. apply rd_be_at in R as (_ & -> & L); [lia|discriminate]. }
    apply plain_end in H as [-> _]; [reflexivity|reflexivity|reflexivity|exact HQ]. }
  split.
  - intros (s & p & H). unfold rd_section in H. apply bind_inv in H as (h & p1 & R1 & H). apply bind_inv in H as (c & p2 & R2 & _). pose proof (kind_is buf pos "PQTZ" KBeatGrid h p1 HB ltac:(cbn; auto 20) HS R1) as HK. apply header_read in R1 as (_ & -> & HL1); [|exact HB].
    unfold rd_content in R2. rewrite HK in R2. unfold rd_beat_grid in R2. apply bind_inv in R2 as (t & q1 & T & R2). apply rd_be_at in T as (_ & -> & _); [|discriminate]. apply bind_inv in R2 as (u & q2 & U & R2). apply rd_be_at in U as (_ & -> & _); [|discriminate].
    apply bind_inv in R2 as (m & q3 & M & R2). apply rd_be_at in M as (M & -> & HL4); [|discriminate]. apply bind_inv in R2 as (cs & q5 & CS & _).
    change (N.of_nat 4) with 4 in *. replace (pos + 12 + 4 + 4) with (pos + 20) in * by lia. rewrite HN in M. injection M as <-. replace (pos + 20 + 4) with (pos + 24) in * by lia.
    destruct (proj1 (count_accepts _ _ buf 8 ltac:(lia) HW HD (N.to_nat n) (pos + 24) HL4)) as [X1 _]; [eauto|]. now rewrite N2Nat.id in X1.
  - intros HL. destruct (proj2 (header_accepts buf pos)) as [h H1]; [lia|]. pose proof (kind_is buf pos "PQTZ" KBeatGrid h _ HB ltac:(cbn; auto 20) HS H1) as HK.
    destruct (proj2 (count_accepts _ _ buf 8 ltac:(lia) HW HD (N.to_nat n) (pos + 24) ltac:(lia))) as (cs & q & H2); [rewrite N2Nat.id; now split|].
    destruct (number_total buf (pos + 12) 4 ltac:(lia)) as [u U]. destruct (number_total buf (pos + 16) 4 ltac:(lia)) as [v V].
    unfold rd_section, bind. rewrite H1. unfold rd_content. rewrite HK. unfold rd_beat_grid, bind. rewrite (rd_be_at_total 4 buf (pos + 12) u ltac:(discriminate) ltac:(lia) U). replace (pos + 12 + N.of_nat 4) with (pos + 16) by lia.
    rewrite (rd_be_at_total 4 buf (pos + 16) v ltac:(discriminate) ltac:(lia) V). replace (pos + 16 + N.of_nat 4) with (pos + 20) by lia. rewrite (rd_be_at_total 4 buf (pos + 20) n ltac:(discriminate) ltac:(lia) HN). replace (pos + 20 + N.of_nat 4) with (pos + 24) by lia. rewrite H2. unfold ret. now eexists _, _.
Qed.
