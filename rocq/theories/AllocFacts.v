(** * Facts about allocation *)
From Coq Require Import NArith ZArith List Bool Lia Sorted.
From Coq Require Import ZifyBool ZifyNat ZifyN.
From Verif Require Import Base BaseFacts Segs Str Schema SchemaFacts StrGood Oa OaFacts Rows RowFacts RowSpec EnumFacts
  Page BitFacts PageFacts PageRw PageSpec Alloc.
Import ListNotations.
Ltac Zify.zify_post_hook ::= Z.div_mod_to_equations.
Open Scope N_scope.

(** ** Slots: the flags and offsets of all groups of a page, numbered from 0 *)
Definition slot_flag (gs : list rgroup) (s : N) : bool :=
  match getN gs (s / 16) with Some g => N.testbit (rg_flags g) (s mod 16) | None => false end.
Definition slot_off (gs : list rgroup) (s : N) : option N :=
  match getN gs (s / 16) with Some g => getN (rg_offs g) (15 - s mod 16) | None => None end.

Lemma present_from_in o fl : forall l j, In o (present_from j fl l) <-> exists i, N.testbit fl (j + i) = true /\ getN l i = Some o.
Proof.
  induction l as [|x l IH]; intro j; cbn [present_from].
  - split; [easy|]. intros (i & _ & H). apply getN_Some_lt in H; rewrite len_nil in H; lia.
  - rewrite in_app_iff, IH. split.
    + intros [H|(i & H1 & H2)].
      * destruct (N.testbit fl j) eqn:E; [|easy]. destruct H as [<-|[]]. exists 0. rewrite N.add_0_r. now rewrite getN_0.
      * exists (i + 1). rewrite getN_cons. replace (i + 1 =? 0) with false by lia. replace (i + 1 - 1) with i by lia.
        now replace (j + (i + 1)) with (j + 1 + i) by lia.
    + intros (i & H1 & H2). rewrite getN_cons in H2. destruct (i =? 0) eqn:E.
      * left. apply N.eqb_eq in E. subst. rewrite N.add_0_r in H1. rewrite H1. injection H2 as ->. now left.
      * right. exists (i - 1). split; [|easy]. now replace (j + 1 + (i - 1)) with (j + i) by lia.
Qed.
Lemma len_rev {A} (l : list A) : len (rev l) = len l.
Proof. unfold len. now rewrite rev_length. Qed.
Lemma getN_rev {A} (l : list A) i : i < len l -> getN (rev l) i = getN l (len l - 1 - i).
Proof.
  induction l as [|x l IH]; intro H; [rewrite len_nil in H; lia|]. rewrite len_cons in *. cbn [rev]. rewrite getN_app, len_rev.
  destruct (i <? len l) eqn:E.
  - rewrite IH by lia. rewrite getN_cons. replace (1 + len l - 1 - i =? 0) with false by lia. f_equal. lia.
  - replace (i - len l) with 0 by lia. now replace (1 + len l - 1 - i) with 0 by lia.
Qed.
Lemma testbit16 x i : is_u16 x -> N.testbit x i = true -> i < 16.
Proof.
  intros H HT. apply size16 in H. destruct (i <? 16) eqn:E; [lia|]. destruct (N.eq_dec x 0) as [->|NZ]; [now rewrite N.bits_0 in HT|].
  rewrite N.size_log2 in H by easy. rewrite N.bits_above_log2 in HT; [easy|lia].
Qed.
Lemma present_in g o : rgroup_ok g ->
  (In o (present_offsets g) <-> exists i, i < 16 /\ N.testbit (rg_flags g) i = true /\ getN (rg_offs g) (15 - i) = Some o).
Proof.
  intros (HL & _ & HF & _). unfold present_offsets. rewrite present_from_in.
  assert (len (rg_offs g) = 16) as L by (unfold len; lia). split.
  - intros (i & H1 & H2). rewrite N.add_0_l in H1. exists i. pose proof (testbit16 _ _ HF H1). rewrite getN_rev in H2 by lia.
    rewrite L in H2. replace (16 - 1 - i) with (15 - i) in H2 by lia. now repeat split.
  - intros (i & H0 & H1 & H2). exists i. rewrite N.add_0_l. split; [easy|]. rewrite getN_rev by lia. rewrite L. now replace (16 - 1 - i) with (15 - i) by lia.
Qed.
Lemma in_getN {A} (l : list A) x : In x l <-> exists i, getN l i = Some x.
Proof.
  unfold getN. split.
  - intro H. apply In_nth_error in H as [n H]. exists (N.of_nat n). now rewrite Nat2N.id.
  - intros [i H]. now apply nth_error_In in H.
Qed.
Lemma present_slots gs o : Forall rgroup_ok gs ->
  (In o (flat_map present_offsets gs) <-> exists s, slot_flag gs s = true /\ slot_off gs s = Some o).
Proof.
  intro HG. rewrite Forall_forall in HG. rewrite in_flat_map. split.
  - intros (g & HI & HP). pose proof (HG g HI) as OK. apply present_in in HP as (i & H1 & H2 & H3); [|easy].
    apply in_getN in HI as [k HK]. exists (16 * k + i). unfold slot_flag, slot_off.
    replace ((16 * k + i) / 16) with k by lia. rewrite HK. now replace ((16 * k + i) mod 16) with i by lia.
  - intros (s & H1 & H2). unfold slot_flag, slot_off in *. destruct (getN gs (s / 16)) as [g|] eqn:E; [|easy].
    assert (In g gs) as HI by (apply in_getN; now exists (s / 16)). exists g. split; [easy|]. apply present_in; [now apply HG|].
    exists (s mod 16). repeat split; [lia|easy|easy].
Qed.

Lemma len_set_nth {A} n (x : A) l : len (set_nth n x l) = len l.
Proof. revert n; induction l as [|a l IH]; intro n; [now destruct n|]. destruct n; cbn [set_nth]; rewrite !len_cons; [easy|]. now rewrite IH. Qed.
Lemma getN_set_nth {A} n (x : A) l i : n < len l -> getN (set_nth (N.to_nat n) x l) i = if i =? n then Some x else getN l i.
Proof.
  intro H. unfold getN, len in *.
  assert (forall m k, (m < length l)%nat -> nth_error (set_nth m x l) k = if Nat.eqb k m then Some x else nth_error l k) as HX.
  { clear. induction l as [|a l IH]; intros m k H; [cbn in H; lia|]. destruct m, k; cbn; try reflexivity. apply IH. cbn in H. lia. }
  rewrite HX by lia. destruct (i =? n) eqn:E; [now replace (Nat.eqb (N.to_nat i) (N.to_nat n)) with true by lia|].
  now replace (Nat.eqb (N.to_nat i) (N.to_nat n)) with false by lia.
Qed.
Lemma Forall_set_nth {A} (P : A -> Prop) n x l : Forall P l -> P x -> Forall P (set_nth n x l).
Proof.
  intros H HX. revert n; induction H as [|a l HA HL IH]; intro n; [destruct n; constructor|]. destruct n; cbn; constructor; easy || apply IH.
Qed.
Lemma u16_log2 x : is_u16 x <-> N.log2 x < 16.
Proof.
  unfold is_u16. destruct (N.eq_dec x 0) as [->|NZ]; [easy|]. change 65536 with (2 ^ 16). rewrite <- N.log2_lt_pow2 by lia. reflexivity.
Qed.
Lemma lor_u16 x y : is_u16 x -> is_u16 y -> is_u16 (N.lor x y).
Proof. rewrite !u16_log2, N.log2_lor. lia. Qed.
Lemma shiftl1_u16 i : i < 16 -> is_u16 (N.shiftl 1 i).
Proof. intro H. rewrite u16_log2, N.shiftl_1_l, N.log2_pow2; lia. Qed.

Lemma insert_offset_ok g i o : rgroup_ok g -> is_u16 o -> rgroup_ok (insert_offset g i o).
Proof.
  intros (H1 & H2 & H3 & H4) HO. unfold insert_offset, rgroup_ok. cbn [rg_offs rg_flags rg_unknown]. split; [|split; [|now split]].
  - pose proof (len_set_nth (N.to_nat (15 - i)) o (rg_offs g)) as HL. unfold len in HL. lia.
  - now apply Forall_set_nth.
Qed.
Lemma mark_present_ok g i : rgroup_ok g -> i < 16 -> rgroup_ok (mark_present g i).
Proof.
  intros (H1 & H2 & H3 & H4) HI. unfold mark_present, rgroup_ok. cbn [rg_offs rg_flags rg_unknown]. split; [easy|]. split; [easy|]. split; [|easy].
  apply lor_u16; [easy|now apply shiftl1_u16].
Qed.

(** Effect of the two updates on slots. *)
Lemma slots_insert gs k i o grp : Forall rgroup_ok gs -> i < 16 -> getN gs k = Some grp ->
  let gs' := set_nth (N.to_nat k) (insert_offset grp i o) gs in
  (forall s, slot_flag gs' s = slot_flag gs s) /\
  (forall s, slot_off gs' s = if s =? 16 * k + i then Some o else slot_off gs s).
Proof.
  intros HG HI HK gs'. pose proof (getN_Some_lt _ _ _ HK) as HL. assert (rgroup_ok grp) as [HO _].
  { rewrite Forall_forall in HG. apply HG. apply in_getN. now exists k. }
  split; intro s; unfold slot_flag, slot_off, gs'; rewrite getN_set_nth by easy.
  - destruct (s / 16 =? k) eqn:E; [|easy]. apply N.eqb_eq in E. now rewrite E, HK.
  - destruct (s / 16 =? k) eqn:E.
    + apply N.eqb_eq in E. rewrite E, HK. unfold insert_offset. cbn [rg_offs]. rewrite getN_set_nth by (unfold len; lia).
      destruct (s =? 16 * k + i) eqn:E2; [now replace (15 - s mod 16 =? 15 - i) with true by lia|].
      now replace (15 - s mod 16 =? 15 - i) with false by lia.
    + now replace (s =? 16 * k + i) with false by lia.
Qed.
Lemma slots_mark gs k i grp : i < 16 -> getN gs k = Some grp ->
  let gs' := set_nth (N.to_nat k) (mark_present grp i) gs in
  (forall s, slot_flag gs' s = (slot_flag gs s || (s =? 16 * k + i))%bool) /\ (forall s, slot_off gs' s = slot_off gs s).
Proof.
  intros HI HK gs'. pose proof (getN_Some_lt _ _ _ HK) as HL.
  split; intro s; unfold slot_flag, slot_off, gs'; rewrite getN_set_nth by easy.
  - destruct (s / 16 =? k) eqn:E.
    + apply N.eqb_eq in E. rewrite E, HK. unfold mark_present. cbn [rg_flags]. rewrite N.lor_spec, N.shiftl_1_l, N.pow2_bits_eqb.
      f_equal. destruct (i =? s mod 16) eqn:E2; symmetry; lia.
    + replace (s =? 16 * k + i) with false by lia. now rewrite orb_false_r.
  - destruct (s / 16 =? k) eqn:E; [|easy]. apply N.eqb_eq in E. now rewrite E, HK.
Qed.
Lemma slots_app gs s : slot_flag (gs ++ [rgroup_empty]) s = slot_flag gs s.
Proof.
  unfold slot_flag. rewrite getN_app. destruct (s / 16 <? len gs) eqn:E; [easy|].
  assert (getN gs (s / 16) = None) as -> by (apply getN_None; lia).
  destruct (getN [rgroup_empty] (s / 16 - len gs)) as [g|] eqn:EG; [|easy].
  assert (In g [rgroup_empty]) as [<-|[]] by (apply in_getN; now exists (s / 16 - len gs)). apply N.bits_0.
Qed.
Lemma slot_off_app gs s : s < 16 * len gs -> slot_off (gs ++ [rgroup_empty]) s = slot_off gs s.
Proof. intro H. unfold slot_off. rewrite getN_app. now replace (s / 16 <? len gs) with true by lia. Qed.
Lemma slot_off_some gs s : Forall rgroup_ok gs -> (exists o, slot_off gs s = Some o) <-> s < 16 * len gs.
Proof.
  intro HG. unfold slot_off. split.
  - intros [o H]. destruct (getN gs (s / 16)) as [g|] eqn:E; [|easy]. apply getN_Some_lt in E. lia.
  - intro H. destruct (getN_lt_Some gs (s / 16)) as [g E]; [lia|]. rewrite E. apply getN_lt_Some.
    rewrite Forall_forall in HG. destruct (HG g) as [HL _]; [apply in_getN; now exists (s / 16)|]. unfold len. lia.
Qed.
