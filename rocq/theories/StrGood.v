(** * Strings that always read back, and a reader that insists on consistent ISRC lengths

    Vocabulary for the statements about rows and pages. *)
From Coq Require Import NArith ZArith List Bool Lia.
From Coq Require Import ZifyBool ZifyNat ZifyN.
From Verif Require Import Base BaseFacts Utf UtfFacts Str StrFacts Schema SchemaFacts.
Import ListNotations.
Open Scope N_scope.

(** A UTF-16 string is not empty and its first byte is not the ISRC marker. *)
Definition dstr_clear (d : dstr) : Prop :=
  match d with DSUcs2 [] => False | DSUcs2 (u :: _) => u mod 256 <> 3 | _ => True end.
(** Well-formed strings: those that read back wherever they are written. *)
Definition dstr_good (d : dstr) : Prop := dstr_inv d /\ isrc_no_nul d /\ dstr_clear d.

Lemma dstr_clear_unamb b d bs buf pos :
  dstr_clear d -> dstr_enc b d = Ok bs -> has buf pos bs -> ~ ambig_at d buf pos.
Proof.
  intros HC HE H ((us & ->) & G & _). destruct (enc_long_inv b (DSUcs2 us) bs eq_refl HE) as (n & l & _ & _ & _ & _ & _ & -> & _).
  apply has_cons in H as [_ H]. apply has_app in H as [_ H]. rewrite len_le_enc in H. apply has_cons in H as [_ H].
  cbn [dstr_body] in H. simpl N.of_nat in H. replace (pos + 1 + 2 + 1) with (pos + 4) in H by lia.
  destruct us as [|u us]; [easy|]. cbn [flat_map le_enc app dstr_clear] in *. apply has_cons in H as [H _]. congruence.
Qed.

Lemma dstr_good_wr b buf : str_wr b (rd_dstr b) dstr_good buf.
Proof.
  intros d pos bs (HI & HN & HC) HE H. apply dstr_wr; try easy. eapply dstr_clear_unamb; eassumption.
Qed.

(** What [new] returns is good unless the string starts like an ISRC string. *)
Lemma dstr_new_good s d : ustr_ok s -> dstr_new s = inl d -> ~ starts_like_isrc s -> dstr_good d.
Proof.
  intros HU HN HS. destruct (dstr_new_inv _ _ HU HN) as [HI HZ]. repeat split; try easy. unfold dstr_new in HN.
  destruct (is_ascii s) eqn:A; cbn [andb] in HN.
  - destruct (utf8_len s <=? max_shortstr_size); [injection HN as <-; easy|].
    destruct (utf8_len s <=? 32767); [injection HN as <-; easy|easy].
  - destruct (utf8_len s <=? 32767); [|easy]. injection HN as <-. cbn [dstr_clear].
    destruct (utf16_enc s) as [|u us] eqn:E.
    + destruct s as [|c s]; [easy|]. unfold utf16_enc in E. cbn [flat_map] in E. unfold utf16_enc1 in E.
      destruct (c <? 65536); easy.
    + intro M. apply HS. split; [easy|]. now exists u, us.
Qed.

(** The reader that in addition rejects ISRC strings with a length field that disagrees with the content. *)
Definition isrc_len_okb (b : build) (d : dstr) (buf : list N) (pos : N) : bool :=
  match d with
  | DSIsrc v => hasb buf (pos + 1) (le_enc 2 (len v + 6)) &&
                ((len v + 6 <? 65536) || match b with Release => len v + 2 <? 65536 | Debug => false end)
  | _ => true
  end.
Definition rd_dstr_strict (b : build) : parser dstr :=
  fun buf pos => match rd_dstr b buf pos with
                 | Ok (d, p) => if isrc_len_okb b d buf pos then Ok (d, p) else Err ECustom
                 | r => r
                 end.

Lemma isrc_len_okb_spec b d buf pos : isrc_len_okb b d buf pos = true <-> isrc_len_ok b d buf pos.
Proof.
  unfold isrc_len_ok. destruct d as [v|v|v|us]; cbn [isrc_len_okb];
    try (split; [intros _ w [=]|easy]).
  rewrite andb_true_iff, hasb_has, orb_true_iff. split.
  - intros [H1 H2] w [= <-]. split; [easy|]. destruct H2 as [H2|H2]; [left; lia|]. destruct b; [easy|]. right. split; [easy|lia].
  - intro H. destruct (H v eq_refl) as [H1 H2]. split; [easy|]. destruct H2 as [H2|[-> H2]]; [left; lia|right; lia].
Qed.

Definition dstr_parsed (d : dstr) : Prop := dstr_inv d /\ isrc_no_nul d.

Lemma rd_dstr_strict_rw b buf :
  bytes_ok buf -> len buf < 2 ^ 64 - 1 -> str_rw b (rd_dstr_strict b) dstr_parsed buf.
Proof.
  intros HB HL d pos pos' H. unfold rd_dstr_strict in H.
  destruct (rd_dstr b buf pos) as [[d0 p0]| |] eqn:R; [|easy|easy].
  destruct (isrc_len_okb b d0 buf pos) eqn:E; [|easy]. injection H as -> ->.
  destruct (rd_dstr_inv _ _ _ _ _ HB HL R) as (HI & HZ & HX). split; [easy|]. apply HX. now apply isrc_len_okb_spec.
Qed.
Lemma rd_dstr_strict_le b buf : rs_le (rd_dstr_strict b) (rd_dstr b) buf.
Proof.
  intros pos [d p] H. unfold rd_dstr_strict in H. destruct (rd_dstr b buf pos) as [[d0 p0]| |]; [|easy|easy].
  now destruct (isrc_len_okb b d0 buf pos).
Qed.
(** Where no ISRC string is read, both readers agree. *)
Lemma rd_dstr_strict_same b buf pos d p :
  rd_dstr b buf pos = Ok (d, p) -> (forall v, d <> DSIsrc v) -> rd_dstr_strict b buf pos = Ok (d, p).
Proof. intros H HN. unfold rd_dstr_strict. rewrite H. destruct d; try easy. now destruct (HN s). Qed.
