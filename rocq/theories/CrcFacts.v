(** * Facts about CRC-16/XMODEM *)
From Coq Require Import NArith ZArith List Bool Lia.
From Coq Require Import ZifyBool ZifyNat ZifyN.
From Verif Require Import Base BaseFacts Crc.
Import ListNotations.
Open Scope N_scope.

(** ** Bits *)
Lemma land_lxor_r a b m : N.land (N.lxor a b) m = N.lxor (N.land a m) (N.land b m).
Proof.
  apply N.bits_inj; intro i. rewrite N.land_spec, !N.lxor_spec, !N.land_spec.
  now destruct (N.testbit a i), (N.testbit b i), (N.testbit m i).
Qed.

Lemma testbit_high a n i : a < 2 ^ n -> n <= i -> N.testbit a i = false.
Proof.
  intros H G. destruct (N.eq_dec a 0) as [->|A]; [apply N.bits_0|].
  apply N.bits_above_log2. apply N.lt_le_trans with n; [|easy]. apply N.log2_lt_pow2; lia.
Qed.

Lemma lt_pow2_bits a n : (forall i, n <= i -> N.testbit a i = false) -> a < 2 ^ n.
Proof.
  intro H. destruct (N.eq_dec a 0) as [->|A]; [apply N.neq_0_lt_0, N.pow_nonzero; easy|].
  apply N.log2_lt_pow2; [lia|]. destruct (N.lt_ge_cases (N.log2 a) n) as [L|L]; [easy|].
  pose proof (H _ L). rewrite N.bit_log2 in H0; easy.
Qed.

Lemma lxor_lt a b n : a < 2 ^ n -> b < 2 ^ n -> N.lxor a b < 2 ^ n.
Proof.
  intros A B. apply lt_pow2_bits. intros i H. rewrite N.lxor_spec, (testbit_high a n), (testbit_high b n); easy.
Qed.

Lemma land_ones16 a i : N.testbit (N.land a 65535) i = (i <? 16) && N.testbit a i.
Proof.
  rewrite N.land_spec. change 65535 with (N.ones 16). destruct (N.ltb_spec i 16).
  - rewrite N.ones_spec_low by easy. now destruct (N.testbit a i).
  - rewrite N.ones_spec_high by easy. now destruct (N.testbit a i).
Qed.

(** ** The step without an input bit *)
Definition zstep (s : N) : N := crc_bit s false.

Lemma crc_bit_lt s b : crc_bit s b < 2 ^ 16.
Proof.
  unfold crc_bit. apply lxor_lt.
  - apply lt_pow2_bits. intros i H. rewrite land_ones16. destruct (N.ltb_spec i 16); [lia|easy].
  - destruct xorb; easy.
Qed.

Lemma zstep_lxor a b : zstep (N.lxor a b) = N.lxor (zstep a) (zstep b).
Proof.
  unfold zstep, crc_bit. rewrite !xorb_false_r, N.lxor_spec, N.shiftl_lxor, land_lxor_r.
  apply N.bits_inj; intro i. rewrite !N.lxor_spec.
  destruct (N.testbit a 15), (N.testbit b 15); cbn [xorb]; rewrite ?N.bits_0;
    destruct (N.testbit (N.land (N.shiftl a 1) 65535) i), (N.testbit (N.land (N.shiftl b 1) 65535) i), (N.testbit 4129 i); easy.
Qed.

Lemma zstep_small v : v < 2 ^ 15 -> zstep v = N.shiftl v 1.
Proof.
  intro H. unfold zstep, crc_bit. rewrite (testbit_high v 15) by easy. cbn [xorb]. rewrite N.lxor_0_r.
  apply N.bits_inj; intro i. rewrite land_ones16. destruct (N.ltb_spec i 16) as [L|L]; [easy|].
  rewrite N.shiftl_spec_high' by lia. symmetry. apply (testbit_high v 15); [easy|lia].
Qed.

Lemma zstep_zero s : s < 2 ^ 16 -> zstep s = 0 -> s = 0.
Proof.
  intros H Z. unfold zstep, crc_bit in Z. rewrite xorb_false_r in Z.
  destruct (N.testbit s 15) eqn:T.
  - assert (N.testbit 0 0 = true) as F; [|discriminate F]. rewrite <- Z at 1. rewrite N.lxor_spec, land_ones16.
    rewrite N.shiftl_spec_low by reflexivity. reflexivity.
  - rewrite N.lxor_0_r in Z. apply N.bits_inj; intro i. rewrite N.bits_0.
    destruct (N.lt_ge_cases i 15) as [L|L].
    + assert (N.testbit (N.land (N.shiftl s 1) 65535) (i + 1) = false) as E by now rewrite Z, N.bits_0.
      rewrite land_ones16 in E. destruct (N.ltb_spec (i + 1) 16); [|lia].
      rewrite N.shiftl_spec_high' in E by lia. now replace (i + 1 - 1) with i in E by lia.
    + destruct (N.eq_dec i 15) as [->|G]; [easy|]. apply (testbit_high s 16); [easy|lia].
Qed.

Lemma crc_bit_top s b : crc_bit s b = zstep (N.lxor s (if b then 32768 else 0)).
Proof.
  rewrite zstep_lxor. unfold zstep, crc_bit. rewrite xorb_false_r. destruct b.
  - change (N.lxor (N.land (N.shiftl 32768 1) 65535) (if xorb (N.testbit 32768 15) false then 4129 else 0)) with 4129.
    rewrite N.lxor_assoc. f_equal. now destruct (N.testbit s 15).
  - cbn [N.testbit]. rewrite xorb_false_r. change (N.lxor (N.land (N.shiftl 0 1) 65535) _) with 0. now rewrite N.lxor_0_r.
Qed.

(** Linear in the register and the input together. *)
Lemma crc_bit_lxor s t b c : crc_bit (N.lxor s t) (xorb b c) = N.lxor (crc_bit s b) (crc_bit t c).
Proof.
  rewrite !crc_bit_top, <- zstep_lxor. f_equal. apply N.bits_inj; intro i. rewrite !N.lxor_spec.
  destruct b, c; cbn [xorb]; rewrite ?N.bits_0;
    destruct (N.testbit s i), (N.testbit t i), (N.testbit 32768 i); easy.
Qed.

Fixpoint xor_bits (a b : list bool) : list bool :=
  match a, b with
  | x :: a, y :: b => xorb x y :: xor_bits a b
  | _, _ => []
  end.

Lemma crc_bits_lxor a : forall b s t, length a = length b ->
  crc_bits (N.lxor s t) (xor_bits a b) = N.lxor (crc_bits s a) (crc_bits t b).
Proof.
  induction a as [|x a IH]; intros [|y b] s t H; try easy.
  cbn [xor_bits]. unfold crc_bits; cbn [fold_left]. fold (crc_bits (crc_bit s x) a) (crc_bits (crc_bit t y) b).
  rewrite crc_bit_lxor. apply IH. now injection H.
Qed.

Lemma crc_bits_app s a b : crc_bits s (a ++ b) = crc_bits (crc_bits s a) b.
Proof. apply fold_left_app. Qed.
Lemma crc_bits_lt bs : forall s, s < 2 ^ 16 -> crc_bits s bs < 2 ^ 16.
Proof.
  induction bs as [|b bs IH]; intros s H; [easy|]. apply IH, crc_bit_lt.
Qed.

(** Zero bits. *)
Lemma crc_zeros_zero n : crc_bits 0 (repeat false n) = 0.
Proof. induction n as [|n IH]; [easy|]. cbn [repeat]. exact IH. Qed.
Lemma crc_zeros_inj n : forall s, s < 2 ^ 16 -> crc_bits s (repeat false n) = 0 -> s = 0.
Proof.
  induction n as [|n IH]; intros s H Z; [easy|]. cbn [repeat] in Z.
  apply (IH (crc_bit s false) (crc_bit_lt _ _)) in Z. now apply zstep_zero.
Qed.

(** A short run of bits as a number. *)
Fixpoint bits_num (bs : list bool) : N :=
  match bs with
  | [] => 0
  | b :: bs => N.lxor (if b then 2 ^ N.of_nat (length bs) else 0) (bits_num bs)
  end.
Lemma bits_num_lt bs : bits_num bs < 2 ^ N.of_nat (length bs).
Proof.
  induction bs as [|b bs IH]; [easy|]. cbn [bits_num length]. apply lxor_lt.
  - destruct b; [apply N.pow_lt_mono_r; lia|]. apply N.neq_0_lt_0, N.pow_nonzero; easy.
  - eapply N.lt_le_trans; [exact IH|]. apply N.pow_le_mono_r; lia.
Qed.
Lemma bits_num_zero bs : bits_num bs = 0 -> bs = repeat false (length bs).
Proof.
  induction bs as [|b bs IH]; [easy|]. cbn [bits_num length repeat]. intro H. destruct b.
  - exfalso. apply N.lxor_eq in H. pose proof (bits_num_lt bs). lia.
  - rewrite N.lxor_0_l in H. f_equal. now apply IH.
Qed.

(** Feeding at most 16 bits is the same as adding them to the register and feeding zeros. *)
Lemma crc_bits_window bs : forall s, (length bs <= 16)%nat ->
  crc_bits s bs = crc_bits (N.lxor s (N.shiftl (bits_num bs) (16 - N.of_nat (length bs)))) (repeat false (length bs)).
Proof.
  induction bs as [|b bs IH]; intros s H.
  - cbn. now rewrite N.lxor_0_r.
  - cbn [length] in H. cbn [repeat length]. change (crc_bits s (b :: bs)) with (crc_bits (crc_bit s b) bs).
    rewrite IH by lia.
    change (crc_bits ?x (false :: repeat false (length bs))) with (crc_bits (zstep x) (repeat false (length bs))).
    f_equal. rewrite crc_bit_top. cbn [bits_num]. set (n := length bs) in *.
    rewrite N.shiftl_lxor. rewrite <- !N.lxor_assoc, (zstep_lxor _ (N.shiftl (bits_num bs) _)). f_equal.
    + f_equal. f_equal. destruct b; [|now rewrite N.shiftl_0_l].
      rewrite N.shiftl_mul_pow2, <- N.pow_add_r. replace (N.of_nat n + (16 - N.of_nat (S n))) with 15 by lia. reflexivity.
    + rewrite zstep_small.
      * rewrite N.shiftl_shiftl. f_equal. lia.
      * rewrite N.shiftl_mul_pow2. pose proof (bits_num_lt bs) as L. fold n in L.
        replace 15 with (N.of_nat n + (16 - N.of_nat (S n))) by lia. rewrite N.pow_add_r.
        apply N.mul_lt_mono_pos_r; [|easy]. apply N.neq_0_lt_0, N.pow_nonzero; easy.
Qed.

(** An error pattern whose set bits lie in a window of 16 bits never leaves the register at zero. *)
Lemma crc_burst k w n : (length w <= 16)%nat -> w <> repeat false (length w) ->
  crc_bits 0 (repeat false k ++ w ++ repeat false n) <> 0.
Proof.
  intros L W H. rewrite !crc_bits_app, crc_zeros_zero in H.
  apply crc_zeros_inj in H; [|now apply crc_bits_lt].
  rewrite crc_bits_window, N.lxor_0_l in H by easy. apply crc_zeros_inj in H.
  - apply N.shiftl_eq_0_iff in H. apply W, bits_num_zero, H.
  - rewrite N.shiftl_mul_pow2. pose proof (bits_num_lt w).
    replace 16 with (N.of_nat (length w) + (16 - N.of_nat (length w))) at 2 by lia. rewrite N.pow_add_r.
    apply N.mul_lt_mono_pos_r; [|easy]. apply N.neq_0_lt_0, N.pow_nonzero; easy.
Qed.

(** ** Carry-less products *)
Lemma clmul_double p g : clmul (N.double p) g = N.shiftl (clmul p g) 1.
Proof. now destruct p. Qed.
Lemma clmul_succ_double p g : clmul (N.succ_double p) g = N.lxor (N.shiftl (clmul p g) 1) g.
Proof. destruct p; [|easy]. cbn [N.succ_double clmul clmul_pos]. now rewrite N.shiftl_0_l, N.lxor_0_l. Qed.

Lemma clmul_step q g (t : bool) : clmul (N.lxor (N.double q) (if t then 1 else 0)) g
  = N.lxor (N.shiftl (clmul q g) 1) (if t then g else 0).
Proof.
  destruct t.
  - replace (N.lxor (N.double q) 1) with (N.succ_double q) by now destruct q. apply clmul_succ_double.
  - rewrite !N.lxor_0_r. apply clmul_double.
Qed.

Lemma clmul_lxor_pos g p : forall q, clmul (Pos.lxor p q) g = N.lxor (clmul_pos p g) (clmul_pos q g).
Proof.
  induction p as [p IH|p IH|]; intros [q|q|]; cbn [Pos.lxor clmul_pos];
    rewrite <- ?N.double_spec; try change Pos.Ndouble with N.double; try change Pos.Nsucc_double with N.succ_double;
    rewrite ?clmul_double, ?clmul_succ_double, ?IH, ?N.shiftl_lxor; cbn [clmul clmul_pos];
    apply N.bits_inj; intro j; rewrite ?N.lxor_spec, ?N.bits_0;
    repeat match goal with |- context [N.testbit ?a ?k] => destruct (N.testbit a k) end; reflexivity.
Qed.
Lemma clmul_lxor g p q : clmul (N.lxor p q) g = N.lxor (clmul p g) (clmul q g).
Proof.
  destruct p, q; cbn [N.lxor clmul]; rewrite ?N.lxor_0_l, ?N.lxor_0_r; try easy. apply clmul_lxor_pos.
Qed.

(** The degree of a product. *)
Lemma clmul_deg n g : N.testbit g n = true -> g < 2 ^ (n + 1) ->
  forall p, N.testbit (clmul_pos p g) (n + N.log2 (Npos p)) = true /\ clmul_pos p g < 2 ^ (n + N.log2 (Npos p) + 1).
Proof.
  intros T L. assert (forall p, N.log2 (Npos (xO p)) = N.log2 (Npos p) + 1 /\ N.log2 (Npos (xI p)) = N.log2 (Npos p) + 1) as HL.
  { intro p. change (Npos (xO p)) with (2 * Npos p). change (Npos (xI p)) with (2 * Npos p + 1).
    rewrite N.log2_double, N.log2_succ_double by easy. lia. }
  induction p as [p IH|p IH|].
  - rewrite (proj2 (HL p)). destruct IH as [IT IL]. cbn [clmul_pos]. split.
    + rewrite N.lxor_spec, N.shiftl_spec_high' by lia. replace (n + (N.log2 (Npos p) + 1) - 1) with (n + N.log2 (Npos p)) by lia.
      rewrite IT, (testbit_high g (n + 1)) by (easy || lia). reflexivity.
    + apply lxor_lt.
      * rewrite N.shiftl_mul_pow2. replace (n + (N.log2 (Npos p) + 1) + 1) with (n + N.log2 (Npos p) + 1 + 1) by lia.
        rewrite (N.pow_add_r _ (n + N.log2 (Npos p) + 1)). apply N.mul_lt_mono_pos_r; easy.
      * eapply N.lt_le_trans; [exact L|]. apply N.pow_le_mono_r; lia.
  - rewrite (proj1 (HL p)). destruct IH as [IT IL]. cbn [clmul_pos]. split.
    + rewrite N.shiftl_spec_high' by lia. now replace (n + (N.log2 (Npos p) + 1) - 1) with (n + N.log2 (Npos p)) by lia.
    + rewrite N.shiftl_mul_pow2. replace (n + (N.log2 (Npos p) + 1) + 1) with (n + N.log2 (Npos p) + 1 + 1) by lia.
      rewrite (N.pow_add_r _ (n + N.log2 (Npos p) + 1)). apply N.mul_lt_mono_pos_r; easy.
  - cbn [clmul_pos]. change (N.log2 1) with 0. rewrite N.add_0_r. easy.
Qed.

Lemma rem16_unique m r1 r2 : is_rem16 m xmodem_poly r1 -> is_rem16 m xmodem_poly r2 -> r1 = r2.
Proof.
  intros (L1 & q1 & E1) (L2 & q2 & E2).
  assert (clmul (N.lxor q1 q2) xmodem_poly = N.lxor r1 r2) as E.
  { rewrite clmul_lxor. apply N.lxor_eq. rewrite E1 in E2.
    apply N.bits_inj; intro i. rewrite N.bits_0, !N.lxor_spec.
    assert (N.testbit (N.lxor (clmul q1 xmodem_poly) r1) i = N.testbit (N.lxor (clmul q2 xmodem_poly) r2) i) as G by now rewrite E2.
    rewrite !N.lxor_spec in G.
    destruct (N.testbit (clmul q1 xmodem_poly) i), (N.testbit (clmul q2 xmodem_poly) i), (N.testbit r1 i), (N.testbit r2 i); easy. }
  destruct (N.lxor q1 q2) as [|p]; [now apply N.lxor_eq|exfalso].
  destruct (clmul_deg 16 xmodem_poly eq_refl eq_refl p) as [T _].
  assert (N.lxor r1 r2 < 2 ^ 16) as L by (apply lxor_lt; easy).
  cbn [clmul] in E. rewrite E, (testbit_high _ 16) in T by (easy || lia). easy.
Qed.

(** ** The register holds the remainder *)
Lemma crc_bit_mul s (b : bool) : s < 2 ^ 16 ->
  N.lxor (N.shiftl s 1) (if b then 65536 else 0) = N.lxor (if xorb (N.testbit s 15) b then xmodem_poly else 0) (crc_bit s b).
Proof.
  intro H. unfold crc_bit.
  assert (N.shiftl s 1 = N.lxor (N.land (N.shiftl s 1) 65535) (if N.testbit s 15 then 65536 else 0)) as E.
  { apply N.bits_inj; intro i. rewrite N.lxor_spec, land_ones16. destruct (N.ltb_spec i 16) as [L|L].
    - assert (N.testbit (if N.testbit s 15 then 65536 else 0) i = false) as ->.
      { destruct (N.testbit s 15); [|apply N.bits_0]. change 65536 with (2 ^ 16). apply N.pow2_bits_false. lia. }
      now rewrite xorb_false_r.
    - rewrite N.shiftl_spec_high' by lia. rewrite xorb_false_l. destruct (N.eq_dec i 16) as [->|G].
      + change (16 - 1) with 15. now destruct (N.testbit s 15).
      + rewrite (testbit_high s 16) by (easy || lia). destruct (N.testbit s 15); [|now rewrite N.bits_0].
        change 65536 with (2 ^ 16). symmetry. apply N.pow2_bits_false. lia. }
  rewrite E at 1. set (u := N.land (N.shiftl s 1) 65535). rewrite !(N.lxor_comm u).
  assert (xmodem_poly = N.lxor 65536 4129) as P by reflexivity.
  apply N.bits_inj; intro i. rewrite !N.lxor_spec.
  destruct (N.testbit s 15), b; cbn [xorb]; rewrite ?P, ?N.lxor_spec, ?N.bits_0;
    destruct (N.testbit 65536 i), (N.testbit 4129 i), (N.testbit u i); reflexivity.
Qed.

(** The message given by a bit list, bit by bit. *)
Definition push_bit (a : N) (b : bool) : N := N.lxor (N.shiftl a 1) (if b then 1 else 0).

Lemma crc_bits_rem bs : forall a s, is_rem16 (N.shiftl a 16) xmodem_poly s ->
  is_rem16 (N.shiftl (fold_left push_bit bs a) 16) xmodem_poly (crc_bits s bs).
Proof.
  induction bs as [|b bs IH]; intros a s H; [easy|].
  cbn [fold_left]. change (crc_bits s (b :: bs)) with (crc_bits (crc_bit s b) bs). apply IH.
  destruct H as (L & q & E). split; [apply crc_bit_lt|].
  exists (N.lxor (N.double q) (if xorb (N.testbit s 15) b then 1 else 0)). rewrite clmul_step.
  rewrite N.lxor_assoc, <- crc_bit_mul, <- N.lxor_assoc, <- N.shiftl_lxor, <- E by easy. unfold push_bit.
  rewrite N.shiftl_lxor, !N.shiftl_shiftl. f_equal. now destruct b.
Qed.

Lemma push_add a b : push_bit a b = 2 * a + N.b2n b.
Proof. unfold push_bit. rewrite N.shiftl_mul_pow2. destruct a, b; cbn; try reflexivity; now rewrite Pos.mul_comm. Qed.
Lemma push_byte x a : x < 256 -> fold_left push_bit (byte_bits x) a = a * 256 + x.
Proof.
  intro H. unfold byte_bits. cbn [map fold_left]. rewrite !push_add.
  assert (forall y, y = 2 * (y / 2) + N.b2n (N.testbit y 0)) as D by (intro y; rewrite N.bit0_odd, <- N.div2_div; exact (N.div2_odd y)).
  assert (forall i, N.testbit x (i + 1) = N.testbit (x / 2 ^ (i+1)) 0) as S.
  { intro i. now rewrite N.div_pow2_bits, N.add_0_l. }
  pose proof (D x). pose proof (D (x/2)) as D1. pose proof (D (x/4)) as D2. pose proof (D (x/8)) as D3.
  pose proof (D (x/16)) as D4. pose proof (D (x/32)) as D5. pose proof (D (x/64)) as D6. pose proof (D (x/128)) as D7.
  rewrite N.div_div in D1, D2, D3, D4, D5, D6, D7 by easy.
  change (2*2) with 4 in *. change (4*2) with 8 in *. change (8*2) with 16 in *. change (16*2) with 32 in *.
  change (32*2) with 64 in *. change (64*2) with 128 in *. change (128*2) with 256 in *.
  rewrite (N.div_small x 256) in D7 by exact H.
  pose proof (S 0) as S1. pose proof (S 1) as S2. pose proof (S 2) as S3. pose proof (S 3) as S4. pose proof (S 4) as S5.
  pose proof (S 5) as S6. pose proof (S 6) as S7.
  cbn [N.add Pos.add Pos.succ N.pow Pos.pow Pos.iter Pos.mul] in S1, S2, S3, S4, S5, S6, S7.
  rewrite S1, S2, S3, S4, S5, S6, S7. clear -H0 D1 D2 D3 D4 D5 D6 D7. lia.
Qed.
Lemma push_bytes bs : bytes_ok bs -> forall a, fold_left push_bit (bits_of bs) a = fold_left (fun a x => a * 256 + x) bs a.
Proof.
  induction bs as [|x bs IH]; intros H a; [easy|]. apply Forall_cons_iff in H as [X H].
  unfold bits_of. cbn [flat_map fold_left]. rewrite fold_left_app, push_byte by easy. now apply IH.
Qed.

(** The checksum is the remainder of the message times x^16. *)
Lemma crc16_rem bs : bytes_ok bs -> is_rem16 (N.shiftl (msg_num bs) 16) xmodem_poly (crc16 bs).
Proof.
  intro H. unfold msg_num. rewrite <- push_bytes by easy. apply crc_bits_rem.
  split; [easy|]. exists 0. reflexivity.
Qed.
Lemma crc16_lt bs : crc16 bs < 65536.
Proof. apply (crc_bits_lt _ 0). easy. Qed.

(** ** Corruption of a message *)
Fixpoint xor_msg (a b : list N) : list N :=
  match a, b with
  | x :: a, y :: b => N.lxor x y :: xor_msg a b
  | _, _ => []
  end.
Lemma bits_xor a : forall b, length a = length b -> bits_of (xor_msg a b) = xor_bits (bits_of a) (bits_of b).
Proof.
  induction a as [|x a IH]; intros [|y b] H; try easy. unfold bits_of in *. cbn [xor_msg flat_map].
  rewrite IH by now injection H. unfold byte_bits. cbn [map app xor_bits]. now rewrite !N.lxor_spec.
Qed.
Lemma length_bits_of bs : length (bits_of bs) = (8 * length bs)%nat.
Proof. induction bs as [|x bs IH]; [easy|]. unfold bits_of in *. cbn [flat_map]. rewrite app_length, IH. cbn [length byte_bits map]. lia. Qed.
Lemma crc16_xor a b : length a = length b -> crc16 (xor_msg a b) = N.lxor (crc16 a) (crc16 b).
Proof.
  intro H. unfold crc16. rewrite bits_xor by easy. rewrite <- (N.lxor_0_l 0) at 1. apply crc_bits_lxor.
  rewrite !length_bits_of. lia.
Qed.
