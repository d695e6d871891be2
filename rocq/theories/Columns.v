(** * Columns of waveforms (src/anlz.rs:472-560)

    Three kinds of columns are [#[bitfield]] structs of modular-bitfield: the components are packed from the least significant bit on, in the order
    of declaration (/repo relies on that order in src/pdb/bitfields.rs:75), [from_bytes] and [into_bytes] have the least significant byte first. *)
From Coq Require Import NArith ZArith List Bool Lia.
From Coq Require Import ZifyBool ZifyNat ZifyN.
From Verif Require Import Base BaseFacts.
Import ListNotations.
Open Scope N_scope.

(** The widths of the components: height and whiteness (src/anlz.rs:488-493); unused and height (509-514); red, green, blue, height and unknown (552-564). *)
Definition preview_widths : list N := [5; 3].
Definition tiny_widths : list N := [4; 4].
Definition color_widths : list N := [3; 3; 3; 5; 2].

(** The getter of component [i]: its bits, moved to the right. *)
Fixpoint bf_get (ws : list N) (i : nat) (x : N) : N :=
  match ws, i with
  | [], _ => 0
  | w :: _, O => x mod 2 ^ w
  | w :: r, S j => bf_get r j (x / 2 ^ w)
  end.
(** [set_…] and [with_…]: values that do not fit panic; other components keep their bits. *)
Fixpoint bf_set (ws : list N) (i : nat) (v x : N) : res N :=
  match ws, i with
  | [], _ => Panic
  | w :: _, O => if v <? 2 ^ w then Ok (x - x mod 2 ^ w + v) else Panic
  | w :: r, S j => do! y <- bf_set r j v (x / 2 ^ w); Ok (x mod 2 ^ w + 2 ^ w * y)
  end.
(** [new]: all bits are zero. *)
Definition bf_new : N := 0.
Definition preview_height : N -> N := bf_get preview_widths 0.
Definition preview_whiteness : N -> N := bf_get preview_widths 1.
Definition tiny_height : N -> N := bf_get tiny_widths 1.
Definition color_red : N -> N := bf_get color_widths 0.
Definition color_green : N -> N := bf_get color_widths 1.
Definition color_blue : N -> N := bf_get color_widths 2.
Definition color_height : N -> N := bf_get color_widths 3.

(** ** Facts *)
Definition bits (ws : list N) : N := fold_right N.add 0 ws.
Lemma bf_get_lt ws : forall i x, (i < length ws)%nat -> bf_get ws i x < 2 ^ nth i ws 0.
Proof.
  induction ws as [|w ws IH]; intros i x L; [cbn in L; lia|]. destruct i as [|i]; cbn [bf_get nth]; [apply N.mod_lt, N.pow_nonzero; discriminate|].
  apply IH. cbn in L. lia.
Qed.
(** The components determine the column, and can have any values. *)
Lemma bf_inj ws : forall x y, x < 2 ^ bits ws -> y < 2 ^ bits ws -> (forall i, (i < length ws)%nat -> bf_get ws i x = bf_get ws i y) -> x = y.
Proof.
  induction ws as [|w ws IH]; intros x y HX HY HG; [cbn in HX, HY; lia|].
  assert (2 ^ w <> 0) as W by (apply N.pow_nonzero; discriminate). change (bits (w :: ws)) with (w + bits ws) in *. rewrite N.pow_add_r in HX, HY.
  rewrite (N.div_mod x (2 ^ w)), (N.div_mod y (2 ^ w)) by assumption. f_equal.
  - f_equal. apply IH; [now apply N.div_lt_upper_bound|now apply N.div_lt_upper_bound|]. intros i L. apply (HG (S i)). cbn. lia.
  - apply (HG 0%nat). cbn. lia.
Qed.
Lemma bf_any ws : forall vs, Forall2 (fun w v => v < 2 ^ w) ws vs -> exists x, x < 2 ^ bits ws /\ forall i, (i < length ws)%nat -> bf_get ws i x = nth i vs 0.
Proof.
  induction ws as [|w ws IH]; intros vs H; inversion H as [|w' v ws' vs' Hv Hvs]; subst; [exists 0; split; [now cbn|intros i L; cbn in L; lia]|].
  destruct (IH _ Hvs) as (y & Y1 & Y2). assert (2 ^ w <> 0) as W by (apply N.pow_nonzero; discriminate).
  exists (v + y * 2 ^ w). change (bits (w :: ws)) with (w + bits ws). rewrite N.pow_add_r. split; [nia|].
  intros [|i] L; cbn [bf_get nth].
  - rewrite N.mod_add by assumption. now apply N.mod_small.
  - rewrite N.div_add by assumption. rewrite N.div_small by assumption. apply Y2. cbn in L. lia.
Qed.
Lemma bf_set_get ws : forall i v x, (i < length ws)%nat -> x < 2 ^ bits ws ->
  (v < 2 ^ nth i ws 0 -> exists y, bf_set ws i v x = Ok y /\ y < 2 ^ bits ws /\ forall j, (j < length ws)%nat -> bf_get ws j y = if Nat.eqb j i then v else bf_get ws j x) /\
  (2 ^ nth i ws 0 <= v -> bf_set ws i v x = Panic).
Proof.
  induction ws as [|w ws IH]; intros i v x L HX; [cbn in L; lia|]. assert (2 ^ w <> 0) as W by (apply N.pow_nonzero; discriminate).
  change (bits (w :: ws)) with (w + bits ws) in *. rewrite N.pow_add_r in *. pose proof (N.div_mod x (2 ^ w) W) as DM. pose proof (N.mod_lt x (2 ^ w) W) as ML.
  assert (x / 2 ^ w < 2 ^ bits ws) as DL by (now apply N.div_lt_upper_bound).
  destruct i as [|i]; cbn [bf_set nth].
  - split; intro HV.
    + replace (v <? 2 ^ w) with true by (symmetry; now apply N.ltb_lt). replace (x - x mod 2 ^ w + v) with (v + x / 2 ^ w * 2 ^ w) by (clear -DM; generalize dependent (x mod 2 ^ w); generalize dependent (x / 2 ^ w); generalize (2 ^ w); nia).
      eexists. split; [reflexivity|]. split; [clear -DL HV; generalize dependent (x / 2 ^ w); generalize dependent (2 ^ w); nia|]. intros [|j] LJ; cbn [bf_get Nat.eqb].
      * rewrite N.mod_add by assumption. now apply N.mod_small.
      * rewrite N.div_add by assumption. rewrite N.div_small by assumption. reflexivity.
    + replace (v <? 2 ^ w) with false by (symmetry; now apply N.ltb_ge). reflexivity.
  - destruct (IH i v (x / 2 ^ w)) as [H1 H2]; [cbn in L; lia|assumption|]. split; intro HV.
    + destruct (H1 HV) as (y & -> & Y1 & Y2). cbn [res_bind]. rewrite (N.mul_comm _ y). eexists. split; [reflexivity|]. split; [clear -Y1 ML; generalize dependent (x mod 2 ^ w); generalize dependent (2 ^ w); nia|].
      intros [|j] LJ; cbn [bf_get Nat.eqb].
      * rewrite N.mod_add by assumption. now apply N.mod_small.
      * rewrite N.div_add by assumption. rewrite N.div_small by assumption. apply Y2. cbn in LJ. lia.
    + now rewrite (H2 HV).
Qed.
