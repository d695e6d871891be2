(** * The UTF decoders invert the encoders. *)
From Coq Require Import NArith ZArith List Bool Lia.
From Coq Require Import ZifyBool ZifyNat ZifyN.
From Verif Require Import Base BaseFacts Utf.
Import ListNotations.
Open Scope N_scope.
Ltac Zify.zify_post_hook ::= Z.div_mod_to_equations.

Ltac dec_true := match goal with |- context [if ?b then _ else _] =>
  first [replace b with true by (unfold in_range; lia) | replace b with false by (unfold in_range; lia)] end.

Lemma utf8_dec_enc1 c r : is_scalar c = true -> utf8_dec (utf8_enc1 c ++ r) = option_map (cons c) (utf8_dec r).
Proof.
  intro S. unfold is_scalar in S. unfold utf8_enc1.
  destruct (c <? 0x80) eqn:E1.
  { cbn [app utf8_dec]. now rewrite E1. }
  destruct (c <? 0x800) eqn:E2.
  { cbn [app utf8_dec]. repeat dec_true. do 2 f_equal. lia. }
  destruct (c <? 0x10000) eqn:E3.
  { cbn [app utf8_dec].
    replace (0xE0 + c / 4096 <? 0x80) with false by lia.
    replace (in_range 0xC2 0xDF (0xE0 + c / 4096)) with false by (unfold in_range; lia).
    replace (in_range 0xE0 0xEF (0xE0 + c / 4096)) with true by (unfold in_range; lia).
    match goal with |- context [if ?b then _ else _] => replace b with true end.
    - do 2 f_equal. lia.
    - symmetry. apply andb_true_iff. split; unfold in_range.
      + destruct (0xE0 + c / 4096 =? 0xE0) eqn:F1, (0xE0 + c / 4096 =? 0xED) eqn:F2; lia.
      + lia. }
  cbn [app utf8_dec].
  replace (0xF0 + c / 262144 <? 0x80) with false by lia.
  replace (in_range 0xC2 0xDF (0xF0 + c / 262144)) with false by (unfold in_range; lia).
  replace (in_range 0xE0 0xEF (0xF0 + c / 262144)) with false by (unfold in_range; lia).
  replace (in_range 0xF0 0xF4 (0xF0 + c / 262144)) with true by (unfold in_range; lia).
  match goal with |- context [if ?b then _ else _] => replace b with true end.
  - do 2 f_equal. lia.
  - symmetry. apply andb_true_iff. split; [apply andb_true_iff; split|]; unfold in_range; [|lia|lia].
    destruct (0xF0 + c / 262144 =? 0xF0) eqn:F1, (0xF0 + c / 262144 =? 0xF4) eqn:F2; lia.
Qed.

Lemma utf8_dec_enc s : ustr_ok s -> utf8_dec (utf8_enc s) = Some s.
Proof.
  induction s as [|c s IH]; intro H; [easy|]. inversion H; subst. unfold utf8_enc in *. cbn [flat_map].
  rewrite utf8_dec_enc1 by easy. now rewrite IH.
Qed.

Lemma utf16_dec_enc1 c r : is_scalar c = true -> utf16_dec (utf16_enc1 c ++ r) = option_map (cons c) (utf16_dec r).
Proof.
  intro S. unfold is_scalar in S. unfold utf16_enc1. destruct (c <? 0x10000) eqn:E.
  - cbn [app utf16_dec]. replace (in_range 0xD800 0xDBFF c) with false by (unfold in_range; lia).
    now replace (in_range 0xDC00 0xDFFF c) with false by (unfold in_range; lia).
  - cbn [app utf16_dec].
    replace (in_range 0xD800 0xDBFF (0xD800 + (c - 0x10000) / 1024)) with true by (unfold in_range; lia).
    replace (in_range 0xDC00 0xDFFF (0xDC00 + (c - 0x10000) mod 1024)) with true by (unfold in_range; lia).
    do 2 f_equal. lia.
Qed.
Lemma utf16_dec_enc s : ustr_ok s -> utf16_dec (utf16_enc s) = Some s.
Proof.
  induction s as [|c s IH]; intro H; [easy|]. inversion H; subst. unfold utf16_enc in *. cbn [flat_map].
  rewrite utf16_dec_enc1 by easy. now rewrite IH.
Qed.

Lemma utf16_units s : ustr_ok s -> Forall (fun u => u < 65536) (utf16_enc s).
Proof.
  induction s as [|c s IH]; intro H; [constructor|]. inversion H as [|? ? S Hs]; subst. unfold utf16_enc in *.
  cbn [flat_map]. apply Forall_app. split; [|now apply IH]. unfold is_scalar in S. unfold utf16_enc1.
  destruct (c <? 0x10000) eqn:E; repeat constructor; lia.
Qed.
Lemma utf8_bytes s : ustr_ok s -> bytes_ok (utf8_enc s).
Proof.
  induction s as [|c s IH]; intro H; [constructor|]. inversion H as [|? ? S Hs]; subst. unfold utf8_enc in *.
  cbn [flat_map]. apply Forall_app. split; [|now apply IH]. unfold is_scalar in S. unfold utf8_enc1.
  destruct (c <? 0x80) eqn:E1; [repeat constructor; lia|].
  destruct (c <? 0x800) eqn:E2; [repeat constructor; lia|].
  destruct (c <? 0x10000) eqn:E3; repeat constructor; lia.
Qed.

(** ASCII text is its own encoding. *)
Lemma utf8_enc_ascii s : is_ascii s = true -> utf8_enc s = s.
Proof.
  induction s as [|c s IH]; intro H; [easy|]. unfold is_ascii in H. cbn [forallb] in H.
  apply andb_true_iff in H as [H1 H2]. unfold utf8_enc in *. cbn [flat_map]. rewrite IH by easy.
  unfold utf8_enc1. now rewrite H1.
Qed.
Lemma utf16_enc_ascii s : is_ascii s = true -> utf16_enc s = s.
Proof.
  induction s as [|c s IH]; intro H; [easy|]. unfold is_ascii in H. cbn [forallb] in H.
  apply andb_true_iff in H as [H1 H2]. unfold utf16_enc in *. cbn [flat_map]. rewrite IH by easy.
  unfold utf16_enc1. now replace (c <? 0x10000) with true by lia.
Qed.
Lemma utf8_dec_ascii s : is_ascii s = true -> utf8_dec s = Some s.
Proof.
  induction s as [|c s IH]; intro H; [easy|]. unfold is_ascii in H. cbn [forallb] in H.
  apply andb_true_iff in H as [H1 H2]. cbn [utf8_dec]. rewrite H1. now rewrite IH.
Qed.

(** A string needs at most as many UTF-16 units as UTF-8 bytes; with equality only for ASCII. *)
Lemma utf16_le_utf8 s : len (utf16_enc s) <= len (utf8_enc s).
Proof.
  induction s as [|c s IH]; [reflexivity|]. unfold utf16_enc, utf8_enc in *. cbn [flat_map]. rewrite !len_app.
  assert (len (utf16_enc1 c) <= len (utf8_enc1 c)); [|lia]. unfold utf16_enc1, utf8_enc1.
  destruct (c <? 0x80) eqn:E1; [now replace (c <? 0x10000) with true by lia|].
  destruct (c <? 0x800) eqn:E2; [replace (c <? 0x10000) with true by lia; autorewrite with len; lia|].
  destruct (c <? 0x10000) eqn:E3; autorewrite with len; lia.
Qed.
Lemma utf16_lt_utf8 s : is_ascii s = false -> len (utf16_enc s) < len (utf8_enc s).
Proof.
  induction s as [|c s IH]; [easy|]. unfold is_ascii in *. cbn [forallb]. intro H.
  unfold utf16_enc, utf8_enc in *. cbn [flat_map]. rewrite !len_app.
  pose proof (utf16_le_utf8 s) as L. unfold utf16_enc, utf8_enc in L.
  destruct (c <? 128) eqn:E1.
  - simpl in H. specialize (IH H). assert (len (utf16_enc1 c) <= len (utf8_enc1 c)); [|lia].
    unfold utf16_enc1, utf8_enc1. rewrite E1. now replace (c <? 0x10000) with true by lia.
  - assert (len (utf16_enc1 c) < len (utf8_enc1 c)); [|lia]. unfold utf16_enc1, utf8_enc1. rewrite E1.
    destruct (c <? 0x800) eqn:E2; [replace (c <? 0x10000) with true by lia; autorewrite with len; lia|].
    destruct (c <? 0x10000) eqn:E3; autorewrite with len; lia.
Qed.
Lemma ustr_ascii s : is_ascii s = true -> ustr_ok s.
Proof.
  intro H. unfold ustr_ok. apply Forall_forall. intros c Hc. unfold is_ascii in H.
  rewrite forallb_forall in H. specialize (H c Hc). unfold is_scalar. lia.
Qed.
Lemma is_ascii_bytes s : is_ascii s = true -> bytes_ok s.
Proof.
  intro H. apply Forall_forall. intros c Hc. unfold is_ascii in H. rewrite forallb_forall in H.
  specialize (H c Hc). lia.
Qed.
