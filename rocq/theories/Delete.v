(** * Programs that delete rows *)
From Coq Require Import NArith ZArith List Bool Lia Sorting.Sorted.
From Coq Require Import ZifyBool ZifyNat ZifyN.
From Verif Require Import Base BaseFacts Segs Str StrFacts StrGood Schema SchemaFacts Oa OaFacts Rows RowFacts RowSpec Page BitFacts PageFacts PageRw PageSpec Alloc AllocFacts AllocSpec Db DbFacts DbFlush Progress Insert Session.
Import ListNotations.
Open Scope N_scope.

(** ** Model *)
(** The crate has no function that deletes a row, but everything that has to be changed is public: [rows] and [row_groups] (src/pdb/mod.rs:668-672), [row_presence_flags]
    (mod.rs:757), [packed_row_counts] (mod.rs:518) with the setters of bitfields.rs:22-29.  A program takes the row out of the map,
    clears the flags of the slots with its offset ([flags &= !(1 << i)]; slot [i] of a group is the offset number [15 - i], mod.rs:783-793) and takes 1 from the number of valid rows. *)
Fixpoint clear_from (o i flags : N) (l : list N) : N :=
  match l with [] => flags | x :: r => clear_from o (i + 1) (if x =? o then N.clearbit flags i else flags) r end.
Definition clear_offset (o : N) (g : rgroup) : rgroup := mk_rgroup (rg_offs g) (clear_from o 0 (rg_flags g) (rev (rg_offs g))) (rg_unknown g).
(** [BTreeMap::remove] *)
Definition map_remove {A} (o : N) (m : list (N * A)) : list (N * A) := filter (fun x => negb (fst x =? o)) m.
(** The row number [i] in the order of the map; nothing happens if there is none. *)
Definition delete_row (b : build) (i : N) (p : page) : res page :=
  match pg_content p with
  | PData c =>
    match getN (dc_rows c) i with
    | Some (o, _) =>
      let h := pg_header p in
      do! v <- wsub b 16 (c_valid (ph_counts h)) 1;
      do! n <- set_valid (ph_counts h) v;
      Ok (mk_page (phdr_upd h n (ph_free h) (ph_used h)) (PData (mk_dcontent (dc_header c) (map (clear_offset o) (dc_groups c)) (map_remove o (dc_rows c)))))
    | None => Ok p
    end
  | PIndex _ => Ok p
  end.

(** ** Spec *)
(** A list without its element number [i]. *)
Definition without {X} (i : N) (l : list X) : list X := firstn (N.to_nat i) l ++ skipn (N.to_nat i + 1) l.
(** The slot and the bytes of a row that is taken from a shelf are not free again. *)
Definition take_out (i : N) (s : shelf) : shelf := mk_shelf (sh_type s) (sh_next s) (sh_free s) (sh_slots s) (without i (sh_rows s)).

(** ** Flags *)
Lemma clear_bits o : forall l i flags j, N.testbit (clear_from o i flags l) j = N.testbit flags j && negb ((i <=? j) && match getN l (j - i) with Some x => x =? o | None => false end).
Proof.
  induction l as [|x l IH]; intros i flags j; cbn [clear_from]; [replace (getN (@nil N) (j - i)) with (@None N) by (unfold getN; now destruct (N.to_nat (j - i))); now rewrite andb_false_r, andb_true_r|]. rewrite IH.
  assert (N.testbit (if x =? o then N.clearbit flags i else flags) j = N.testbit flags j && negb ((x =? o) && (i =? j))) as ->.
  { destruct (x =? o); [|now rewrite andb_true_r]. rewrite N.clearbit_eqb. easy. }
  rewrite <- andb_assoc. f_equal. destruct (i =? j) eqn:E.
  - replace (i + 1 <=? j) with false by lia. replace (i <=? j) with true by lia. replace (j - i) with 0 by lia. rewrite getN_0. cbn [andb negb]. now rewrite andb_true_r, andb_true_r.
  - rewrite andb_false_r. cbn [negb andb]. destruct (i <=? j) eqn:E2.
    + replace (i + 1 <=? j) with true by lia. rewrite getN_cons. replace (j - i =? 0) with false by lia. now replace (j - i - 1) with (j - (i + 1)) by lia.
    + now replace (i + 1 <=? j) with false by lia.
Qed.
Lemma clear_sub o l i flags j : N.testbit (clear_from o i flags l) j = true -> N.testbit flags j = true.
Proof. rewrite clear_bits. now intro H; apply andb_true_iff in H as []. Qed.
Lemma clear_le o l i flags : clear_from o i flags l <= flags.
Proof.
  apply N.ldiff_le. apply N.bits_inj. intro j. rewrite N.ldiff_spec, N.bits_0. destruct (N.testbit (clear_from o i flags l) j) eqn:E; [|easy]. apply clear_sub in E. now rewrite E.
Qed.
Lemma size_mono x y : x <= y -> N.size x <= N.size y.
Proof.
  intro H. destruct (N.eq_dec x 0) as [->|NX]; [cbn; lia|]. rewrite !N.size_log2 by lia. pose proof (N.log2_le_mono x y H). lia.
Qed.
Lemma clear_skip o g : rg_skip g <= rg_skip (clear_offset o g).
Proof. unfold rg_skip, leading_zeros16. cbn [clear_offset rg_flags]. pose proof (size_mono _ _ (clear_le o (rev (rg_offs g)) 0 (rg_flags g))). lia. Qed.
Lemma clear_rgroup o g : rgroup_ok g -> rgroup_ok (clear_offset o g).
Proof.
  intros (H1 & H2 & H3 & H4). unfold rgroup_ok. cbn [clear_offset rg_offs rg_flags rg_unknown]. repeat (split; [easy|]). split; [|easy]. unfold is_u16 in *. pose proof (clear_le o (rev (rg_offs g)) 0 (rg_flags g)). lia.
Qed.
Lemma clear_footer o : forall gs, footer_size (map (clear_offset o) gs) <= footer_size gs.
Proof.
  induction gs as [|g gs IH]; [easy|]. destruct gs as [|g' gs].
  - cbn [map footer_size]. pose proof (clear_skip o g). lia.
  - change (footer_size (map (clear_offset o) (g :: g' :: gs))) with (36 + footer_size (map (clear_offset o) (g' :: gs))). change (footer_size (g :: g' :: gs)) with (36 + footer_size (g' :: gs)). lia.
Qed.
Lemma clear_slot o gs s : slot_flag (map (clear_offset o) gs) s = true -> slot_flag gs s = true.
Proof.
  unfold slot_flag, getN. rewrite nth_error_map. destruct (nth_error gs (N.to_nat (s / 16))) as [g|]; [|easy]. cbn [option_map clear_offset rg_flags]. apply clear_sub.
Qed.
Lemma present_clear_from o : forall l i fl fl', (forall j, j < len l -> N.testbit fl' (i + j) = N.testbit fl (i + j) && negb (match getN l j with Some x => x =? o | None => false end)) ->
  present_from i fl' l = filter (fun x => negb (x =? o)) (present_from i fl l).
Proof.
  induction l as [|x l IH]; intros i fl fl' H; [easy|]. cbn [present_from]. rewrite filter_app. f_equal.
  - specialize (H 0). rewrite N.add_0_r, getN_0 in H. rewrite H by (rewrite len_cons; lia). destruct (N.testbit fl i); [|easy]. cbn [andb filter]. now destruct (negb (x =? o)).
  - apply IH. intros j HJ. specialize (H (j + 1) ltac:(rewrite len_cons; lia)). rewrite getN_cons in H. replace (j + 1 =? 0) with false in H by lia. replace (j + 1 - 1) with j in H by lia. now replace (i + (j + 1)) with (i + 1 + j) in H by lia.
Qed.
Lemma present_clear o g : present_offsets (clear_offset o g) = filter (fun x => negb (x =? o)) (present_offsets g).
Proof.
  unfold present_offsets. cbn [clear_offset rg_offs rg_flags]. apply present_clear_from. intros j _. rewrite clear_bits. replace (0 <=? 0 + j) with true by lia. now replace (0 + j - 0) with j by lia.
Qed.
Lemma presents_clear o : forall gs, flat_map present_offsets (map (clear_offset o) gs) = filter (fun x => negb (x =? o)) (flat_map present_offsets gs).
Proof. induction gs as [|g gs IH]; [easy|]. cbn [map flat_map]. now rewrite filter_app, present_clear, IH. Qed.

(** ** Maps *)
Lemma remove_keys {A} o (m : list (N * A)) : keys (map_remove o m) = filter (fun x => negb (x =? o)) (keys m).
Proof. induction m as [|[k v] m IH]; [easy|]. unfold map_remove, keys in *. cbn [filter map fst]. destruct (negb (k =? o)); cbn [map fst]; now rewrite IH. Qed.
Lemma remove_sorted {A} o (m : list (N * A)) : sorted m -> sorted (map_remove o m).
Proof.
  unfold sorted. rewrite remove_keys. generalize (keys m). induction 1 as [|x l H1 IH H2]; [constructor|]. cbn [filter]. destruct (negb (x =? o)); [|easy]. constructor; [easy|].
  rewrite Forall_forall in *. intros y Hy. apply filter_In in Hy as [Hy _]. now apply H2.
Qed.
Lemma remove_other {A} o (m : list (N * A)) : Forall (fun x => fst x <> o) m -> map_remove o m = m.
Proof. induction 1 as [|x m H _ IH]; [easy|]. unfold map_remove in *. cbn [filter]. rewrite IH. now replace (negb (fst x =? o)) with true by lia. Qed.
Lemma remove_without {A} : forall (m : list (N * A)) i o v, sorted m -> getN m i = Some (o, v) -> map_remove o m = without i m.
Proof.
  induction m as [|[k w] m IH]; intros i o v HS HG; [apply getN_Some_lt in HG; rewrite len_nil in HG; lia|]. unfold sorted in HS. cbn [keys map fst] in HS. inversion HS as [|? ? S1 S2]; subst. rewrite getN_cons in HG. destruct (i =? 0) eqn:E.
  - injection HG as -> ->. assert (i = 0) as -> by lia. unfold map_remove. cbn [filter fst]. rewrite N.eqb_refl. cbn [negb]. unfold without. cbn [N.to_nat firstn plus skipn app]. apply (remove_other o).
    apply Forall_forall. intros x Hx. rewrite Forall_forall in S2. specialize (S2 (fst x)). enough (o < fst x) by lia. apply S2. unfold keys. now apply in_map.
  - assert (k < o) as HK. { rewrite Forall_forall in S2. apply S2. unfold keys. apply in_map_iff. exists (o, v). split; [easy|]. unfold getN in HG. now apply nth_error_In in HG. }
    unfold map_remove. cbn [filter fst]. replace (negb (k =? o)) with true by lia. fold (map_remove o m). rewrite (IH (i - 1) o v S1 HG). unfold without. replace (N.to_nat i) with (S (N.to_nat (i - 1))) by lia. reflexivity.
Qed.
Lemma without_out {X} i (l : list X) : len l <= i -> without i l = l.
Proof. intro H. unfold without, len in *. rewrite firstn_all2 by lia. rewrite skipn_all2 by lia. apply app_nil_r. Qed.
Lemma without_len {X} i (l : list X) : i < len l -> len (without i l) = len l - 1.
Proof. intro H. unfold without, len in *. rewrite app_length, firstn_length, skipn_length. lia. Qed.
Lemma without_map {X Y} (f : X -> Y) i l : map f (without i l) = without i (map f l).
Proof. unfold without. now rewrite map_app, firstn_map, skipn_map. Qed.
Lemma forall2_firstn {X Y} (R : X -> Y -> Prop) l l' : Forall2 R l l' -> forall n, Forall2 R (firstn n l) (firstn n l').
Proof. induction 1 as [|x y l l' H _ IH]; intros [|n]; cbn [firstn]; try constructor; easy. Qed.
Lemma forall2_skipn {X Y} (R : X -> Y -> Prop) l l' : Forall2 R l l' -> forall n, Forall2 R (skipn n l) (skipn n l').
Proof. induction 1 as [|x y l l' H H2 IH]; intros [|n]; cbn [skipn]; try constructor; easy. Qed.
Lemma without_forall2 {X Y} (R : X -> Y -> Prop) i l l' : Forall2 R l l' -> Forall2 R (without i l) (without i l').
Proof. intro H. unfold without. apply Forall2_app; [now apply forall2_firstn|now apply forall2_skipn]. Qed.
Lemma remove_forall {A} (P : N * A -> Prop) o m : Forall P m -> Forall P (map_remove o m).
Proof. rewrite !Forall_forall. intros H x Hx. apply filter_In in Hx as [Hx _]. now apply H. Qed.
Lemma tidy_lower b : forall rows lo lo' hi, tidy b lo rows hi -> lo' <= lo -> tidy b lo' rows hi.
Proof. intros [|[o r] rows] lo lo' hi H HL; cbn [tidy] in *; [lia|]. destruct H as (H & n & H1 & H2). split; [lia|]. now exists n. Qed.
Lemma remove_tidy b o : forall rows lo hi, tidy b lo rows hi -> tidy b lo (map_remove o rows) hi.
Proof.
  induction rows as [|[k r] rows IH]; intros lo hi H; [easy|]. cbn [tidy] in H. destruct H as (H & n & H1 & H2). unfold map_remove. cbn [filter fst]. fold (map_remove o rows). apply IH in H2. destruct (negb (k =? o)).
  - cbn [tidy]. split; [easy|]. now exists n.
  - apply (tidy_lower b _ (k + n)); [easy|lia].
Qed.

(** ** Pages *)
Lemma Ok_inj {X} (x y : X) : Ok x = Ok y -> x = y.
Proof. now intros [=]. Qed.
Lemma delete_ok b db ps i p : page_consistent b db ps p -> exists p', delete_row b i p = Ok p'.
Proof.
  intro HC. unfold delete_row. destruct p as [h [c|c]]; cbn [pg_content pg_header]; [|now eexists]. destruct (getN (dc_rows c) i) as [[o r]|] eqn:E; [|now eexists].
  destruct HC as [(_ & _ & P3 & _ & _ & _ & _ & _ & P9 & _) _]. cbn [pg_header] in *. apply getN_Some_lt in E. destruct P3 as (_ & _ & _ & _ & _ & (_ & P3) & _).
  rewrite wsub_ok by lia. cbn [res_bind]. unfold set_valid. replace (c_valid (ph_counts h) - 1 <? 2048) with true by lia. cbn [res_bind]. now eexists.
Qed.
Lemma delete_sound b db ps i p s g p' : page_consistent b db ps p -> page_writes b ps p -> graded b db ps g p -> like s p -> delete_row b i p = Ok p' ->
  page_consistent b db ps p' /\ page_writes b ps p' /\ graded b db ps g p' /\ like (take_out i s) p'.
Proof.
  intros HC HW HG HL HD. pose proof HL as (L1 & L2 & L3 & L4 & L5). unfold delete_row in HD. destruct p as [h [c|c]]; cbn [pg_content pg_header rows_of_page] in *.
  2:{ apply Ok_inj in HD. subst p'. repeat (split; [easy|]). unfold like. cbn [take_out sh_type sh_next sh_free sh_slots sh_rows]. repeat (split; [easy|]). cbn [rows_of_page pg_content]. inversion L5. unfold without. rewrite firstn_nil, skipn_nil. constructor. }
  destruct (getN (dc_rows c) i) as [[o r]|] eqn:E.
  2:{ apply Ok_inj in HD. subst p'. repeat (split; [easy|]). unfold like. cbn [take_out sh_type sh_next sh_free sh_slots sh_rows]. repeat (split; [easy|]). cbn [rows_of_page pg_content]. rewrite without_out; [easy|].
      apply getN_None in E. enough (len (sh_rows s) = len (dc_rows c)) by lia. clear - L5. revert L5. generalize (dc_rows c). induction (sh_rows s) as [|x l IH]; intros [|y m] H; inversion H; subst; [easy|]. rewrite !len_cons. f_equal. now apply IH. }
  unfold page_consistent, page_writes in HC, HW. cbn [pg_content pg_header] in HC, HW. destruct HC as [HO HT]. pose proof HO as (P1 & P2 & P3 & P4 & P5 & P6 & P7 & P8 & P9 & P10 & P11).
  pose proof P3 as (Q1 & Q2 & Q3 & Q4 & Q5 & [Q6 Q6'] & Q7 & Q8 & Q9).
  pose proof E as EL. apply getN_Some_lt in EL. rewrite wsub_ok in HD by lia. cbn [res_bind] in HD. unfold set_valid in HD. replace (c_valid (ph_counts h) - 1 <? 2048) with true in HD by lia. cbn [res_bind] in HD. apply Ok_inj in HD. subst p'.
  set (h' := phdr_upd h _ _ _). set (c' := mk_dcontent _ _ _).
  assert (dpage_ok dstr_good db ps h' c') as HO'.
  { unfold dpage_ok. cbn [h' c' phdr_upd ph_flags ph_counts ph_type dc_header dc_groups dc_rows c_valid]. repeat (split; [easy|]). split.
    { unfold phdr_ok. cbn [phdr_upd ph_index ph_type ph_next ph_unknown1 ph_unknown2 ph_counts ph_flags ph_free ph_used]. repeat (split; [easy|]). split; [|easy]. unfold counts_ok. cbn [c_rows c_valid]. split; [easy|apply (N.le_lt_trans _ (c_valid (ph_counts h))); [apply N.le_sub_l|exact Q6']]. }
    repeat (split; [easy|]). split; [unfold len in *; now rewrite map_length|]. split; [apply Forall_map; eapply Forall_impl; [|exact P7]; intros g0; apply clear_rgroup|].
    split; [now apply remove_sorted|]. split; [rewrite (remove_without _ i o r P8 E), without_len by easy; lia|].
    split; [|now apply remove_forall]. intro x. rewrite remove_keys, presents_clear, !filter_In, P10. reflexivity. }
  assert (Forall (fun x => row_writes b (snd x)) (dc_rows c')) as HW' by (now apply remove_forall).
  assert (page_consistent b db ps (mk_page h' (PData c'))) as HC'.
  { unfold page_consistent. cbn [pg_content pg_header]. split; [exact HO'|]. destruct HT as (T1 & T2 & T3). pose proof (clear_footer o (dc_groups c)). unfold page_tidy. cbn [c' dc_groups dc_rows]. split; [unfold len in *; now rewrite map_length|]. split; [lia|].
    apply remove_tidy. apply (tidy_mono b _ _ _ _ T3). lia. }
  split; [exact HC'|]. split; [exact HW'|]. split.
  - destruct g; [exact I|now split|]. cbn [graded] in *. destruct HG as [(h0 & c0 & E0 & HA) _]. injection E0 as <- <-. split; [|exact HW']. eexists _, _. split; [reflexivity|]. 
    destruct HA as (A1 & A2 & A3 & A4 & A5 & A6). split; [exact HO'|]. split; [easy|]. split; [exact A3|]. cbn [c' dc_groups dc_rows h' phdr_upd ph_counts c_rows ph_used].
    split; [intros x Hx; apply A4; now apply clear_slot in Hx|]. split; [now apply remove_tidy|]. intros x Hx. rewrite remove_keys in Hx. apply filter_In in Hx as [Hx _]. now apply A6.
  - unfold like. cbn [take_out sh_type sh_next sh_free sh_slots sh_rows h' phdr_upd pg_header ph_type ph_next ph_free ph_counts c_rows]. repeat (split; [easy|]). cbn [rows_of_page pg_content c' dc_rows].
    rewrite (remove_without _ i o r P8 E), without_map. now apply without_forall2.
Qed.
