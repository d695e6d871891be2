(** * Facts about pages: headers, maps, row groups *)
From Coq Require Import NArith ZArith List Bool Lia Sorted.
From Coq Require Import ZifyBool ZifyNat ZifyN.
From Verif Require Import Base BaseFacts Segs Str Schema SchemaFacts StrGood Oa OaFacts Rows RowFacts RowSpec EnumFacts Page BitFacts.
Import ListNotations.
Ltac Zify.zify_post_hook ::= Z.div_mod_to_equations.
Open Scope N_scope.

(** ** Page header *)

(** The values that exist in Rust and are read back: the page type is one of the database type. *)
Definition ptype_ok (db : dbtype) (pt : ptype) : Prop :=
  match pt with PT k => In k (db_kinds db) | PTUnknown c => c < 2 ^ 32 /\ ~ exists k, In k (db_kinds db) /\ kind_code k = c end.
Definition phdr_ok (db : dbtype) (h : phdr) : Prop :=
  is_u32 (ph_index h) /\ ptype_ok db (ph_type h) /\ is_u32 (ph_next h) /\ is_u32 (ph_unknown1 h) /\ is_u32 (ph_unknown2 h) /\
  counts_ok (ph_counts h) /\ is_u8 (ph_flags h) /\ is_u16 (ph_free h) /\ is_u16 (ph_used h).

Lemma no_rs_wr b Q buf : (forall d, ~ Q d) -> str_wr b no_rs Q buf.
Proof. intros H d pos bs HQ. now apply H in HQ. Qed.
Lemma no_rs_rw b Q buf : str_rw b no_rs Q buf.
Proof. intros d pos pos' H. discriminate. Qed.

Definition no_q (d : dstr) : Prop := False.

Lemma kind_code_lt k : kind_code k < 2 ^ 32.
Proof. now destruct k. Qed.
Lemma ptype_code_ok db pt : ptype_ok db pt -> ptype_code pt < 2 ^ 32 /\ ptype_of db (ptype_code pt) = pt.
Proof.
  intro H. destruct pt as [k|c]; cbn [ptype_code ptype_ok] in *.
  - split; [apply kind_code_lt|]. now apply ptype_of_kind.
  - destruct H as [H1 H2]. split; [easy|]. pose proof (ptype_of_spec db c) as HS. destruct (ptype_of db c) as [k|c'].
    + exfalso. apply H2. exists k. exact HS.
    + destruct HS as [-> _]. reflexivity.
Qed.
Lemma ptype_of_ok db x : x < 2 ^ 32 -> ptype_ok db (ptype_of db x) /\ ptype_code (ptype_of db x) = x.
Proof.
  intro H. pose proof (ptype_of_spec db x) as HS. destruct (ptype_of db x) as [k|c]; cbn [ptype_ok ptype_code].
  - exact HS.
  - destruct HS as [-> HN]. split; [split|]; [easy|exact HN|reflexivity].
Qed.

Lemma phdr_fields_ok db h : phdr_ok db h -> fields_ok no_q phdr_fields (phdr_vals h).
Proof.
  intros (H1 & H2 & H3 & H4 & H5 & H6 & H7 & H8 & H9). apply ptype_code_ok in H2 as [H2 _]. apply counts_code_lt in H6.
  unfold is_u32, is_u16, is_u8 in *. unfold phdr_fields, phdr_vals, fields_ok. repeat (constructor; [cbn; try exact I; assumption|]). constructor.
Qed.
Lemma phdr_of_vals db h : phdr_ok db h -> phdr_of db (phdr_vals h) = Ok h.
Proof.
  intros (H1 & H2 & H3 & H4 & H5 & H6 & H7 & H8 & H9). apply ptype_code_ok in H2 as [_ H2]. destruct H6 as [H6 _].
  unfold phdr_vals, phdr_of. rewrite H2, counts_of_code by easy. now destruct h.
Qed.
Lemma phdr_enc_ok db b h : phdr_ok db h -> exists bs, phdr_enc b h = Ok bs /\ len bs = 32.
Proof. intro H. unfold phdr_enc. apply (fields_enc_size b no_q phdr_fields); [reflexivity|]. now apply (phdr_fields_ok db). Qed.
Lemma phdr_wr db b h bs buf pos :
  phdr_ok db h -> phdr_enc b h = Ok bs -> has buf pos bs -> rd_phdr db buf pos = Ok (h, pos + 32).
Proof.
  intros H HE HH. unfold rd_phdr. pose proof (phdr_fields_ok db h H) as HF.
  assert (len bs = 32) as HL by (now apply (fields_enc_len b no_q phdr_fields (phdr_vals h))).
  eapply bind_ok.
  - apply (fields_wr b no_rs no_q); try eassumption; [reflexivity|]. now apply no_rs_wr.
  - unfold lift. rewrite (phdr_of_vals db h H). now rewrite HL.
Qed.
Lemma phdr_rw db b h buf pos pos' :
  bytes_ok buf -> pos <= len buf -> rd_phdr db buf pos = Ok (h, pos') ->
  phdr_ok db h /\ pos' = pos + 32 /\ exists bs, phdr_enc b h = Ok bs /\ has buf pos bs /\ len bs = 32.
Proof.
  intros HB HP H. unfold rd_phdr in H. apply bind_inv in H as (vs & p1 & R & H).
  apply (fields_rw b no_rs no_q) in R as (HF & bs & E & HH & ->); try easy.
  assert (len bs = 32) as HL by (now apply (fields_enc_len b no_q phdr_fields vs)).
  unfold lift in H. destruct (phdr_of db vs) as [h0| |] eqn:EH; [|easy|easy]. injection H as <- <-.
  unfold phdr_fields in HF.
  repeat match goal with H : fields_ok _ (_ :: _) _ |- _ => inversion H; subst; clear H
                    | H : Forall2 (field_ok _) (_ :: _) _ |- _ => inversion H; subst; clear H
                    | H : Forall2 (field_ok _) [] _ |- _ => inversion H; subst; clear H end.
  repeat match goal with H : field_ok _ u32f ?v |- _ => destruct v; cbn in H; try easy
                    | H : field_ok _ u16f ?v |- _ => destruct v; cbn in H; try easy
                    | H : field_ok _ u8f ?v |- _ => destruct v; cbn in H; try easy
                    | H : field_ok _ (FInt _ _) ?v |- _ => destruct v; cbn in H; try easy
                    | H : field_ok _ (FMagic _ _ _) ?v |- _ => destruct v; cbn in H; try easy end.
  cbn in EH. injection EH as <-. unfold phdr_enc, phdr_vals, phdr_ok. cbn [ph_index ph_type ph_next ph_unknown1 ph_unknown2 ph_counts ph_flags ph_free ph_used].
  rewrite counts_code_of. 
  match goal with |- context[ptype_of db ?x] => destruct (ptype_of_ok db x) as [T1 T2]; [assumption|] end. rewrite T2.
  split; [|split; [now rewrite HL|exists bs; now split]].
  repeat (split; [assumption|]). split; [|repeat (split; [assumption|]); assumption].
  apply counts_of_ok. assumption.
Qed.

(** ** Row groups *)
Definition rg_skip (g : rgroup) : N := leading_zeros16 (rg_flags g).
Definition rgroup_ok (g : rgroup) : Prop :=
  length (rg_offs g) = 16%nat /\ Forall is_u16 (rg_offs g) /\ is_u16 (rg_flags g) /\ is_u16 (rg_unknown g).
Definition rg_bytes (g : rgroup) : list N :=
  flat_map (le_enc 2) (skipn (N.to_nat (rg_skip g)) (rg_offs g)) ++ le_enc 2 (rg_flags g) ++ le_enc 2 (rg_unknown g).
(** The bytes that are written for a group which ends at [endp]. *)
Definition rg_seg (g : rgroup) (endp : N) : seg := (endp - 36 + 2 * rg_skip g, rg_bytes g).

Lemma size16 x : is_u16 x -> N.size x <= 16.
Proof.
  unfold is_u16. intro H. destruct (N.eq_dec x 0) as [->|NZ]; [easy|]. rewrite N.size_log2 by easy.
  assert (N.log2 x < 16) by (apply N.log2_lt_pow2; [lia|exact H]). lia.
Qed.
Lemma rg_skip_le g : rg_skip g <= 16.
Proof. unfold rg_skip, leading_zeros16. lia. Qed.
Lemma len_flat2 l : len (flat_map (le_enc 2) l) = 2 * N.of_nat (length l).
Proof. induction l as [|x l IH]; [easy|]. cbn [flat_map length]. rewrite len_app, len_le_enc, IH. lia. Qed.
Lemma len_flat4 l : len (flat_map (le_enc 4) l) = 4 * N.of_nat (length l).
Proof. induction l as [|x l IH]; [easy|]. cbn [flat_map length]. rewrite len_app, len_le_enc, IH. lia. Qed.
Lemma len_rg_bytes g : length (rg_offs g) = 16%nat -> len (rg_bytes g) = 36 - 2 * rg_skip g.
Proof.
  intro H. unfold rg_bytes. rewrite !len_app, len_flat2, !len_le_enc, skipn_length. pose proof (rg_skip_le g). lia.
Qed.
Lemma rg_bytes_nonempty g : rg_bytes g <> [].
Proof. unfold rg_bytes. destruct (flat_map _ _); easy. Qed.

Lemma wr_seek_rel_eq d buf pos p : (Z.of_N pos + d)%Z = Z.of_N p -> wr_seek_rel d (buf, pos) = Ok (buf, p).
Proof. intro H. unfold wr_seek_rel. rewrite H. replace (Z.of_N p <? 0)%Z with false by lia. do 2 f_equal. lia. Qed.
Lemma rgroup_write_eq g buf pos :
  length (rg_offs g) = 16%nat ->
  rgroup_write g (buf, pos) = if pos <? 36 then Err EIo else Ok (write_segs buf [rg_seg g pos], pos - 36).
Proof.
  intro HL. unfold rgroup_write, wr_seq. destruct (pos <? 36) eqn:E.
  - unfold wr_seek_rel at 1. now replace (Z.of_N pos + -36 <? 0)%Z with true by lia.
  - rewrite (wr_seek_rel_eq (-36) buf pos (pos - 36)) by lia. cbn [res_bind]. fold (rg_skip g). pose proof (rg_skip_le g).
    rewrite (wr_seek_rel_eq _ buf _ (pos - 36 + 2 * rg_skip g)) by lia. cbn [res_bind]. unfold wr_bytes. cbn [res_bind].
    pose proof (len_rg_bytes g HL) as HB. unfold rg_bytes in HB. rewrite !len_app in HB. rewrite !len_le_enc in *.
    rewrite (wr_seek_rel_eq (-36) _ _ (pos - 36)) by lia.
    unfold rg_seg, rg_bytes, write_segs. now rewrite !write_at_app, !len_le_enc.
Qed.

Fixpoint groups_segs (gs : list rgroup) (endp : N) : list seg :=
  match gs with [] => [] | g :: r => rg_seg g endp :: groups_segs r (endp - 36) end.
Lemma groups_write_eq : forall gs buf pos,
  Forall rgroup_ok gs -> 36 * len gs <= pos ->
  wr_all (map rgroup_write gs) (buf, pos) = Ok (write_segs buf (groups_segs gs pos), pos - 36 * len gs).
Proof.
  induction gs as [|g gs IH]; intros buf pos HG HL.
  - cbn. unfold wr_nil. do 2 f_equal. lia.
  - inversion HG as [|? ? [G1 _] G2]; subst. cbn [map wr_all]. unfold wr_seq at 1. rewrite rgroup_write_eq by easy.
    rewrite len_cons in *. replace (pos <? 36) with false by lia. cbn [res_bind]. rewrite IH by (assumption || lia).
    cbn [groups_segs]. destruct (rg_seg g pos) as [p bs]. cbn [write_segs]. do 2 f_equal. lia.
Qed.
Lemma groups_write_inv : forall gs buf pos s,
  Forall rgroup_ok gs -> wr_all (map rgroup_write gs) (buf, pos) = Ok s -> 36 * len gs <= pos.
Proof.
  induction gs as [|g gs IH]; intros buf pos s HG H; [cbn; lia|].
  inversion HG as [|? ? [G1 _] G2]; subst. cbn [map wr_all] in H. unfold wr_seq at 1 in H. rewrite rgroup_write_eq in H by easy.
  destruct (pos <? 36) eqn:E; [easy|]. cbn [res_bind] in H. apply IH in H; [|easy]. rewrite len_cons. lia.
Qed.

(** Reading a group whose bytes are stored: the offsets in front of the last present row may be anything. *)
Definition rg_same (g g' : rgroup) : Prop :=
  rg_flags g' = rg_flags g /\ rg_unknown g' = rg_unknown g /\ length (rg_offs g') = length (rg_offs g) /\
  skipn (N.to_nat (rg_skip g)) (rg_offs g') = skipn (N.to_nat (rg_skip g)) (rg_offs g).

Lemma rd_count_add {A} (p : parser A) n m buf pos l1 p1 l2 p2 :
  rd_count n p buf pos = Ok (l1, p1) -> rd_count m p buf p1 = Ok (l2, p2) -> rd_count (n + m) p buf pos = Ok (l1 ++ l2, p2).
Proof.
  revert pos l1; induction n as [|n IH]; intros pos l1 H1 H2.
  - cbn in H1. injection H1 as <- <-. exact H2.
  - cbn [rd_count Nat.add] in *. apply bind_inv in H1 as (x & q & R & H1). apply bind_inv in H1 as (xs & q2 & R2 & H1).
    apply ret_inv in H1 as [<- <-]. eapply bind_ok; [exact R|]. eapply bind_ok; [apply IH; eassumption|]. reflexivity.
Qed.
Lemma rd_le_total n buf pos : pos + N.of_nat n <= len buf -> exists v, rd_le n buf pos = Ok (v, pos + N.of_nat n).
Proof.
  intro H. exists (le_dec (takeN (N.of_nat n) (dropN pos buf))). unfold rd_le. pose proof (has_take_drop buf pos (N.of_nat n) H) as HH.
  apply rd_bytes_has in HH. rewrite len_takeN, len_dropN in HH.
  replace (N.min (N.of_nat n) (len buf - pos)) with (N.of_nat n) in HH by lia. eapply bind_ok; [exact HH|]. reflexivity.
Qed.
Lemma rd_count_le2_total n : forall buf pos, pos + 2 * N.of_nat n <= len buf ->
  exists l, rd_count n (rd_le 2) buf pos = Ok (l, pos + 2 * N.of_nat n) /\ length l = n.
Proof.
  induction n as [|n IH]; intros buf pos H.
  - exists []. cbn. split; [|easy]. unfold ret. do 2 f_equal. lia.
  - destruct (rd_le_total 2 buf pos) as [v E]; [lia|]. destruct (IH buf (pos + N.of_nat 2)) as (l & E2 & HL); [lia|].
    exists (v :: l). split; [|cbn; now rewrite HL]. cbn [rd_count]. eapply bind_ok; [exact E|]. eapply bind_ok; [exact E2|].
    unfold ret. do 2 f_equal. lia.
Qed.
Lemma rd_u16s_has buf pos l :
  Forall is_u16 l -> has buf pos (flat_map (le_enc 2) l) -> rd_count (length l) (rd_le 2) buf pos = Ok (l, pos + 2 * N.of_nat (length l)).
Proof.
  intros HF HH. rewrite <- len_flat2. eapply rd_count_has; [|exact HF|exact HH]. intros v q HV H. rewrite len_le_enc.
  apply rd_le_has; [exact HV|exact H].
Qed.

Lemma rgroup_wr g buf endp :
  rgroup_ok g -> 36 <= endp -> has buf (fst (rg_seg g endp)) (snd (rg_seg g endp)) ->
  exists g', rd_rgroup buf endp = Ok (g', endp - 36) /\ rg_same g g'.
Proof.
  intros (HL & HF & H1 & H2) HE HH. unfold rg_seg in HH. cbn [fst snd] in HH. pose proof (has_len _ _ _ HH) as HB.
  rewrite len_rg_bytes in HB by easy. unfold rg_bytes in HH. apply has_app in HH as [HO HH]. apply has_app in HH as [HFl HU].
  rewrite len_flat2, skipn_length, HL in HFl, HU. rewrite len_le_enc in HU. pose proof (rg_skip_le g) as HS.
  set (k := N.to_nat (rg_skip g)) in *.
  destruct (rd_count_le2_total k buf (endp - 36)) as (l1 & R1 & L1); [lia|].
  assert (Forall is_u16 (skipn k (rg_offs g))) as HF'.
  { rewrite <- (firstn_skipn k) in HF. now apply Forall_app in HF. }
  replace (endp - 36 + 2 * rg_skip g) with (endp - 36 + 2 * N.of_nat k) in * by lia.
  pose proof (rd_u16s_has _ _ _ HF' HO) as R2. rewrite skipn_length, HL in R2.
  pose proof (rd_count_add _ _ _ _ _ _ _ _ _ R1 R2) as R. replace (k + (16 - k))%nat with 16%nat in R by lia.
  exists (mk_rgroup (l1 ++ skipn k (rg_offs g)) (rg_flags g) (rg_unknown g)). split.
  - unfold rd_rgroup. eapply bind_ok with (a := tt) (pos' := endp - 36).
    { unfold seek_rel. replace (Z.of_N endp + -36 <? 0)%Z with false by lia. do 2 f_equal. lia. }
    eapply bind_ok; [exact R|]. eapply bind_ok; [apply rd_le_has; [exact H1|exact HFl]|].
    eapply bind_ok; [apply rd_le_has; [exact H2|]|].
    { replace (endp - 36 + 2 * N.of_nat k + 2 * N.of_nat (16 - k) + N.of_nat 2) with (endp - 2) in * by lia. exact HU. }
    cbv beta. eapply bind_ok with (a := tt) (pos' := endp - 36); [|reflexivity].
    unfold seek_rel. match goal with |- context[(?x <? 0)%Z] => replace (x <? 0)%Z with false by lia end. do 2 f_equal. lia.
  - unfold rg_same. cbn [rg_flags rg_unknown rg_offs]. split; [easy|]. split; [easy|]. split.
    + rewrite app_length, skipn_length, HL. lia.
    + fold k. rewrite skipn_app, L1, Nat.sub_diag, skipn_all2 by lia. reflexivity.
Qed.
Lemma rgroup_rw g buf endp p :
  bytes_ok buf -> rd_rgroup buf endp = Ok (g, p) ->
  rgroup_ok g /\ 36 <= endp /\ p = endp - 36 /\ has buf (fst (rg_seg g endp)) (snd (rg_seg g endp)).
Proof.
  intros HB H. unfold rd_rgroup in H. apply bind_inv in H as (u & p1 & R & H). unfold seek_rel in R.
  destruct (Z.of_N endp + -36 <? 0)%Z eqn:E; [easy|]. injection R as <- <-.
  apply bind_inv in H as (os & p2 & R & H).
  apply (rd_count_inv (le_enc 2) (rd_le 2) is_u16) in R as (HL & HF & HO & ->).
  2: { intros v q q' RR. apply rd_le_inv in RR as (A & B & ->); try easy. }
  destruct HO as [HO|HO]; [easy|]. apply bind_inv in H as (fl & p3 & R & H). apply rd_le_inv in R as (F1 & F2 & ->); [|easy|easy].
  apply bind_inv in H as (un & p4 & R & H). apply rd_le_inv in R as (U1 & U2 & ->); [|easy|easy].
  apply bind_inv in H as (u2 & p5 & R & H). unfold seek_rel in R. rewrite len_flat2, HL in *.
  match type of R with (if (?x <? 0)%Z then _ else _) = _ => replace (x <? 0)%Z with false in R by lia end.
  injection R as <- <-. apply ret_inv in H as [<- <-].
  set (g := mk_rgroup os fl un). assert (rgroup_ok g) as HG by (repeat split; assumption).
  split; [easy|]. split; [lia|]. split; [lia|]. unfold rg_seg. cbn [fst snd].
  pose proof (rg_skip_le g) as HS. unfold rg_bytes. cbn [g rg_offs rg_flags rg_unknown]. fold g.
  rewrite <- (firstn_skipn (N.to_nat (rg_skip g)) os), flat_map_app in HO. apply has_app in HO as [_ HO].
  rewrite len_flat2, firstn_length, HL in HO.
  replace (Z.to_N (Z.of_N endp + -36)) with (endp - 36) in * by lia.
  apply has_app. split; [|apply has_app; split].
  - replace (endp - 36 + 2 * rg_skip g) with (endp - 36 + 2 * N.of_nat (Init.Nat.min (N.to_nat (rg_skip g)) 16)) by lia. exact HO.
  - rewrite len_flat2, skipn_length, HL. replace (endp - 36 + 2 * rg_skip g + 2 * N.of_nat (16 - N.to_nat (rg_skip g))) with (endp - 36 + 2 * N.of_nat 16) by lia. exact F2.
  - rewrite len_flat2, skipn_length, HL, len_le_enc. replace (endp - 36 + 2 * rg_skip g + 2 * N.of_nat (16 - N.to_nat (rg_skip g)) + N.of_nat 2) with (endp - 36 + 2 * N.of_nat 16 + N.of_nat 2) by lia. exact U2.
Qed.
Lemma groups_wr : forall gs buf endp,
  Forall rgroup_ok gs -> 36 * len gs <= endp -> segs_in buf (groups_segs gs endp) ->
  exists gs', rd_count (length gs) rd_rgroup buf endp = Ok (gs', endp - 36 * len gs) /\ Forall2 rg_same gs gs'.
Proof.
  induction gs as [|g gs IH]; intros buf endp HG HL HS.
  - exists []. split; [|constructor]. cbn. unfold ret. do 2 f_equal. lia.
  - inversion HG as [|? ? G1 G2]; subst. inversion HS as [|? ? S1 S2]; subst. rewrite len_cons in *.
    destruct (rgroup_wr g buf endp) as (g' & R & E); try easy; [lia|].
    destruct (IH buf (endp - 36)) as (gs' & R2 & E2); try easy; [lia|].
    exists (g' :: gs'). split; [|now constructor]. cbn [length rd_count]. eapply bind_ok; [exact R|]. eapply bind_ok; [exact R2|].
    unfold ret. do 2 f_equal. lia.
Qed.
Lemma groups_rw : forall n buf endp gs p,
  bytes_ok buf -> rd_count n rd_rgroup buf endp = Ok (gs, p) ->
  length gs = n /\ Forall rgroup_ok gs /\ 36 * len gs <= endp /\ p = endp - 36 * len gs /\ segs_in buf (groups_segs gs endp).
Proof.
  induction n as [|n IH]; intros buf endp gs p HB H; cbn [rd_count] in H.
  - apply ret_inv in H as [<- <-]. split; [easy|]. split; [constructor|]. split; [cbn; lia|]. split; [cbn; lia|]. constructor.
  - apply bind_inv in H as (g & p1 & R & H). apply bind_inv in H as (gs' & p2 & R2 & H). apply ret_inv in H as [<- <-].
    apply rgroup_rw in R as (A & B & -> & C); [|easy]. apply IH in R2 as (L & F & D & -> & S); [|easy]. rewrite len_cons.
    split; [cbn; lia|]. split; [now constructor|]. split; [lia|]. split; [lia|]. cbn [groups_segs]. now constructor.
Qed.

(** Present rows depend only on what is stored. *)
Lemma present_from_above i fl l : N.size fl <= i -> present_from i fl l = [].
Proof.
  revert i; induction l as [|o l IH]; intros i H; [easy|]. cbn [present_from]. rewrite IH by lia.
  destruct (N.eq_dec fl 0) as [->|NZ]; [now rewrite N.bits_0|]. rewrite N.bits_above_log2; [easy|].
  rewrite N.size_log2 in H by easy. lia.
Qed.
Lemma present_from_app i fl l1 l2 : present_from i fl (l1 ++ l2) = present_from i fl l1 ++ present_from (i + len l1) fl l2.
Proof.
  revert i; induction l1 as [|o l1 IH]; intro i; [cbn; now rewrite N.add_0_r|]. cbn [app present_from]. rewrite IH, len_cons, <- app_assoc.
  do 2 f_equal. f_equal. lia.
Qed.
Lemma present_offsets_skip g : rgroup_ok g ->
  present_offsets g = present_from 0 (rg_flags g) (rev (skipn (N.to_nat (rg_skip g)) (rg_offs g))).
Proof.
  intros (HL & _ & HF & _). unfold present_offsets. rewrite <- (firstn_skipn (N.to_nat (rg_skip g)) (rg_offs g)) at 1. rewrite rev_app_distr, present_from_app.
  rewrite (present_from_above (0 + _)); [now rewrite app_nil_r|]. unfold len. rewrite rev_length, skipn_length, HL.
  unfold rg_skip, leading_zeros16. pose proof (size16 _ HF). lia.
Qed.
Lemma rg_same_ok g g' : rgroup_ok g -> rg_same g g' -> present_offsets g' = present_offsets g.
Proof.
  intros HG (E1 & E2 & E3 & E4). rewrite (present_offsets_skip g HG). unfold present_offsets, rg_skip in *. rewrite E1.
  rewrite <- E4. clear E4. destruct HG as (HL & _ & HF & _).
  rewrite <- (firstn_skipn (N.to_nat (leading_zeros16 (rg_flags g))) (rg_offs g')) at 1. rewrite rev_app_distr, present_from_app.
  rewrite (present_from_above (0 + _)); [now rewrite app_nil_r|]. unfold len. rewrite rev_length, skipn_length, E3, HL.
  unfold leading_zeros16. pose proof (size16 _ HF). lia.
Qed.
