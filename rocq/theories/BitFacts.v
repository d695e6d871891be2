(** * Facts about the bit fields and index entries *)
From Coq Require Import NArith ZArith List Bool Lia.
From Coq Require Import ZifyBool ZifyNat ZifyN.
From Verif Require Import Base BaseFacts Page.
Import ListNotations.
Open Scope N_scope.
Ltac Zify.zify_post_hook ::= Z.div_mod_to_equations.

Definition counts_ok (c : counts) : Prop := c_rows c < 8192 /\ c_valid c < 2048.
Lemma counts_code_of x : counts_code (counts_of x) = x.
Proof. unfold counts_code, counts_of; cbn [c_rows c_valid]. lia. Qed.
Lemma counts_of_code c : c_rows c < 8192 -> counts_of (counts_code c) = c.
Proof.
  intro H. destruct c as [r v]. unfold counts_code, counts_of; cbn [c_rows c_valid] in *. f_equal.
  - lia.
  - lia.
Qed.
Lemma counts_of_ok x : x < 2 ^ 24 -> counts_ok (counts_of x).
Proof. change (2 ^ 24) with 16777216. unfold counts_ok, counts_of; cbn [c_rows c_valid]. lia. Qed.
Lemma counts_code_lt c : counts_ok c -> counts_code c < 2 ^ 24.
Proof. change (2 ^ 24) with 16777216. unfold counts_ok, counts_code. lia. Qed.

Lemma set_rows_spec c n : set_rows c n = if n <? 8192 then Ok (mk_counts n (c_valid c)) else Panic.
Proof. reflexivity. Qed.
Lemma counts_all_valid_spec n :
  counts_all_valid n = if n mod 65536 <? 2048 then Ok (mk_counts (n mod 65536) (n mod 65536)) else Panic.
Proof.
  unfold counts_all_valid, set_rows, set_valid. cbn [c_valid c_rows].
  destruct (n mod 65536 <? 8192) eqn:E1; cbn [res_bind c_rows]; destruct (n mod 65536 <? 2048) eqn:E2; try reflexivity; lia.
Qed.

Lemma num_row_groups_least c g : num_row_groups c <= g <-> c_rows c <= 16 * g.
Proof. unfold num_row_groups. lia. Qed.
Lemma last_row_index_spec c :
  last_row_index c = if c_rows c =? 0 then None else Some ((c_rows c - 1) / 16, (c_rows c - 1) mod 16).
Proof.
  unfold last_row_index, num_row_groups. destruct (c_rows c =? 0) eqn:E.
  - now destruct ((c_rows c + 15) / 16 =? 0).
  - replace ((c_rows c + 15) / 16 =? 0) with false by lia. do 2 f_equal. lia.
Qed.

(** Index entries *)
Lemma land7 x : N.land x 7 = x mod 8.
Proof. change 7 with (N.ones 3). now rewrite N.land_ones. Qed.
Lemma shiftr3 x : N.shiftr x 3 = x / 8.
Proof. now rewrite N.shiftr_div_pow2. Qed.
Lemma shiftl3 x : N.shiftl x 3 = 8 * x.
Proof. rewrite N.shiftl_mul_pow2. change (2 ^ 3) with 8. lia. Qed.
Lemma lor_low x f : f < 8 -> N.lor (8 * x) f = 8 * x + f.
Proof.
  intro H. rewrite <- N.lxor_lor, <- N.add_nocarry_lxor; try easy.
  all: apply N.bits_inj; intro n; rewrite N.land_spec, N.bits_0; destruct (n <? 3) eqn:E.
  1,3: rewrite <- shiftl3, N.shiftl_spec_low by lia; reflexivity.
  all: rewrite andb_comm; replace (N.testbit f n) with false; [easy|].
  all: symmetry; destruct (N.eq_dec f 0) as [->|]; [apply N.bits_0|]; apply N.bits_above_log2.
  all: assert (N.log2 f < 3) by (apply N.log2_lt_pow2; [lia|exact H]); lia.
Qed.
Lemma index_entry_new_spec idx f :
  idx < 2 ^ 29 -> index_entry_new idx f = if f <? 8 then Some (8 * idx + f) else None.
Proof.
  intro H. unfold index_entry_new. rewrite land7, shiftl3. destruct (f <? 8) eqn:E.
  - replace (f mod 8 =? f) with true by lia. change (2 ^ 32) with (8 * 2 ^ 29). rewrite N.mod_small by lia.
    rewrite N.mod_small by lia. now rewrite lor_low by lia.
  - now replace (f mod 8 =? f) with false by lia.
Qed.
Lemma index_entry_ok idx f :
  idx < 0x3FFFFFF ->
  (f < 8 <-> exists e, index_entry_new idx f = Some e) /\
  forall e, index_entry_new idx f = Some e ->
    e < 2 ^ 32 /\ index_entry_page e = Some idx /\ index_entry_flags e = f /\ index_entry_is_empty e = false.
Proof.
  intro H. change (2 ^ 32) with 4294967296.
  rewrite index_entry_new_spec by (change (2 ^ 29) with 536870912; lia). destruct (f <? 8) eqn:E.
  - split; [split; [now eexists|lia]|]. intros e He. assert (e = 8 * idx + f) as -> by congruence. clear He. unfold index_entry_page, page_index_try, index_entry_flags, index_entry_is_empty.
    rewrite shiftr3, land7. replace ((8 * idx + f) / 8) with idx by lia. replace (idx <? 67108863) with true by lia.
    split; [lia|]. split; [easy|]. split; lia.
  - split; [split; [lia|now intros []]|easy].
Qed.
Lemma index_entry_decode e idx :
  e < 2 ^ 32 -> index_entry_page e = Some idx ->
  idx < 0x3FFFFFF /\ index_entry_new idx (index_entry_flags e) = Some e /\ index_entry_is_empty e = false.
Proof.
  intros H. unfold index_entry_page, page_index_try. rewrite shiftr3. destruct (e / 8 <? 0x3FFFFFF) eqn:E; [|easy].
  intros [= <-]. split; [lia|]. unfold index_entry_flags, index_entry_is_empty. rewrite land7.
  rewrite index_entry_new_spec by (change (2 ^ 29) with 536870912; change (2 ^ 32) with 4294967296 in H; lia).
  replace (e mod 8 <? 8) with true by lia. split; [f_equal; lia|lia].
Qed.
Lemma index_entry_debug e :
  index_entry_debug_panics e = true <-> 0x1FFFFFF8 < e.
Proof.
  unfold index_entry_debug_panics, index_entry_is_empty, index_entry_page, page_index_try. rewrite shiftr3.
  destruct (e =? 536870904) eqn:E; [split; lia|]. destruct (e / 8 <? 67108863) eqn:E2; split; try easy; lia.
Qed.
Lemma page_offset_ok b idx ps : is_u32 idx -> is_u32 ps -> page_offset b idx ps = Ok (idx * ps) /\ idx * ps < 2 ^ 64.
Proof.
  unfold is_u32, page_offset. intros H1 H2. assert (idx * ps < 2 ^ 64).
  { change (2 ^ 64) with (2 ^ 32 * 2 ^ 32). now apply N.mul_lt_mono. }
  split; [|easy]. now apply wmul_ok.
Qed.

Lemma counts_bijection :
  (forall x, x < 2 ^ 24 -> counts_ok (counts_of x) /\ counts_code (counts_of x) = x) /\
  (forall r v, r < 8192 -> v < 2048 ->
     counts_code (mk_counts r v) < 2 ^ 24 /\ counts_of (counts_code (mk_counts r v)) = mk_counts r v).
Proof.
  split.
  - intros x H. split; [now apply counts_of_ok|apply counts_code_of].
  - intros r v Hr Hv. split; [apply counts_code_lt; now split|now apply counts_of_code].
Qed.
Lemma counts_bits c i : c_rows c < 8192 ->
  N.testbit (counts_code c) i = if i <? 13 then N.testbit (c_rows c) i else N.testbit (c_valid c) (i - 13).
Proof.
  intro H. unfold counts_code. destruct (i <? 13) eqn:E.
  - replace (c_rows c) with ((c_rows c + 8192 * c_valid c) mod 2 ^ 13) at 2 by (change (2 ^ 13) with 8192; lia).
    rewrite N.mod_pow2_bits_low; [easy|lia].
  - replace (c_valid c) with ((c_rows c + 8192 * c_valid c) / 2 ^ 13) at 2 by (change (2 ^ 13) with 8192; lia).
    rewrite N.div_pow2_bits. f_equal. lia.
Qed.
Lemma increment_spec c : counts_ok c ->
  increment_num_rows c = (if c_rows c =? 8191 then Panic else Ok (mk_counts (c_rows c + 1) (c_valid c))) /\
  increment_num_rows_valid c = (if c_valid c =? 2047 then Panic else Ok (mk_counts (c_rows c) (c_valid c + 1))).
Proof.
  intros [H1 H2]. unfold increment_num_rows, increment_num_rows_valid, set_rows, set_valid. split.
  - destruct (c_rows c =? 8191) eqn:E; [now replace (c_rows c + 1 <? 8192) with false by lia|].
    now replace (c_rows c + 1 <? 8192) with true by lia.
  - destruct (c_valid c =? 2047) eqn:E; [now replace (c_valid c + 1 <? 2048) with false by lia|].
    now replace (c_valid c + 1 <? 2048) with true by lia.
Qed.
Lemma counts_all_valid_truncates : exists n c, counts_all_valid n = Ok c /\ c_rows c <> n.
Proof. exists 65536, (mk_counts 0 0). split; [reflexivity|discriminate]. Qed.
Lemma last_row_index_rel c :
  match last_row_index c with
  | None => c_rows c = 0
  | Some (g, i) => i < 16 /\ c_rows c = 16 * g + i + 1
  end.
Proof.
  rewrite last_row_index_spec. destruct (c_rows c =? 0) eqn:E; [lia|]. split; lia.
Qed.
Lemma last_row_in_last_group c g i : last_row_index c = Some (g, i) -> num_row_groups c = g + 1.
Proof.
  rewrite last_row_index_spec. unfold num_row_groups. destruct (c_rows c =? 0) eqn:E; [easy|].
  intro H. assert (g = (c_rows c - 1) / 16) as -> by congruence. lia.
Qed.
Lemma index_entry_empty_spec : index_entry_is_empty index_entry_empty = true /\ index_entry_page index_entry_empty = None.
Proof. split; reflexivity. Qed.
Lemma index_entry_unvalidated : exists idx e, idx < 2 ^ 32 /\ index_entry_new idx 0 = Some e /\ index_entry_page e <> Some idx.
Proof. exists (2 ^ 29), 0. split; [reflexivity|]. split; [reflexivity|]. discriminate. Qed.
