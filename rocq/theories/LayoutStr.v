(** * The bytes of strings

    The specification of C65 and its proof; no code of /repo is modelled here. *)
From Coq Require Import NArith ZArith List Bool Lia.
From Coq Require Import ZifyBool ZifyNat ZifyN.
From Verif Require Import Base BaseFacts Utf UtfFacts Str StrFacts Schema SchemaFacts StrGood Layout.
Import ListNotations.
Open Scope N_scope.

Definition u16_bytes (x : N) : list N := [x mod 256; x / 256 mod 256].
(** UTF-16, least significant byte first; code points behind the first plane are a pair of surrogates. *)
Definition utf16_bytes (c : N) : list N :=
  if c <? 0x10000 then u16_bytes c else u16_bytes (0xD800 + (c - 0x10000) / 1024) ++ u16_bytes (0xDC00 + (c - 0x10000) mod 1024).
(** Long strings: a flag byte, the number of all bytes, a zero, the content. *)
Definition long_bytes (flags : N) (content : list N) : list N := flags :: u16_bytes (len content + 4) ++ [0] ++ content.
(** ASCII up to 126 characters: one byte in front; else ASCII with flag 0x40; other text in UTF-16 with flag 0x90. *)
Definition text_bytes (s : list N) : list N :=
  if forallb (fun c => c <? 128) s
  then if len s <=? 126 then 2 * len s + 3 :: s else long_bytes 0x40 s
  else long_bytes 0x90 (flat_map utf16_bytes s).
(** ISRC strings: flag 0x90, the byte 3, the characters, a zero. *)
Definition isrc_bytes (s : list N) : list N := match s with [] => [3] | _ => long_bytes 0x90 ([3] ++ s ++ [0]) end.

Lemma u16_le_enc x : le_enc 2 x = u16_bytes x.
Proof. reflexivity. Qed.
Lemma u16_bytes_mod x : u16_bytes (x mod 65536) = u16_bytes x.
Proof. rewrite <- !u16_le_enc. apply le_enc2_mod. Qed.
Lemma utf16_bytes_enc s : flat_map (le_enc 2) (utf16_enc s) = flat_map utf16_bytes s.
Proof.
  unfold utf16_enc. induction s as [|c s IH]; [reflexivity|]. cbn [flat_map]. rewrite flat_map_app, IH. f_equal. unfold utf16_enc1, utf16_bytes.
  destruct (c <? 65536); cbn [flat_map]; rewrite ?app_nil_r, ?u16_le_enc; reflexivity.
Qed.
Lemma is_ascii_spec s : is_ascii s = forallb (fun c => c <? 128) s.
Proof. reflexivity. Qed.
Lemma wadd_mod b n l : n < 65536 -> wadd b 16 n 4 = Ok l -> l = (n + 4) mod 65536.
Proof.
  intros HN H. unfold wadd, ovf in H. change (2 ^ 16) with 65536 in H. destruct (n + 4 <? 65536) eqn:E; [injection H as <-; rewrite N.mod_small; lia|].
  destruct b; [discriminate|]. now injection H as <-.
Qed.
Lemma long_enc_bytes b d bs : is_short d = false -> dstr_enc b d = Ok bs -> bs = long_bytes (dstr_flags d) (dstr_body d).
Proof.
  intros HS H. destruct (enc_long_inv b d bs HS H) as (n & l & HC & Hn & HW & _ & _ & -> & _). apply wadd_mod in HW as ->; [|assumption].
  rewrite u16_le_enc, u16_bytes_mod. unfold long_bytes. now rewrite (len_body_count _ _ HC).
Qed.
Lemma new_enc_bytes b s d bs : dstr_new s = inl d -> dstr_enc b d = Ok bs -> bs = text_bytes s.
Proof.
  intros HN HE. unfold dstr_new in HN. unfold text_bytes. rewrite <- is_ascii_spec. destruct (is_ascii s) eqn:A; cbn [andb] in HN.
  - rewrite (utf8_enc_ascii _ A) in HN. unfold utf8_len in HN. rewrite (utf8_enc_ascii _ A) in HN. change max_shortstr_size with 126 in HN.
    destruct (len s <=? 126) eqn:E.
    + injection HN as <-. cbn [dstr_enc] in HE. rewrite header_odd in HE by lia. apply Ok_eq in HE as <-. f_equal. lia.
    + destruct (len s <=? 32767); [|discriminate]. injection HN as <-. now apply long_enc_bytes in HE.
  - destruct (utf8_len s <=? 32767); [|discriminate]. injection HN as <-. apply long_enc_bytes in HE; [|reflexivity]. cbn [dstr_flags dstr_body] in HE.
    now rewrite utf16_bytes_enc in HE.
Qed.
Lemma isrc_enc_bytes b s d bs : dstr_new_isrc s = inl d -> dstr_enc b d = Ok bs -> bs = isrc_bytes s.
Proof.
  intros HN HE. unfold dstr_new_isrc in HN. destruct s as [|c s]; [injection HN as <-; cbn in HE; now injection HE as <-|].
  destruct (utf8_len (c :: s) =? 12); [|discriminate]. destruct (is_ascii (c :: s)) eqn:A; [|discriminate]. cbn [negb orb] in HN. assert (d = DSIsrc (utf8_enc (c :: s))) as -> by congruence.
  apply long_enc_bytes in HE; [|reflexivity]. cbn [dstr_flags dstr_body] in HE. rewrite (utf8_enc_ascii _ A) in HE. exact HE.
Qed.
Lemma new_writes b s d buf pos buf' p : dstr_new s = inl d -> dstr_write b d (buf, pos) = Ok (buf', p) ->
  has buf' pos (text_bytes s) /\ p = pos + len (text_bytes s).
Proof.
  intros HN H. apply dstr_write_inv in H as (bs & HE & -> & -> & H). now rewrite (new_enc_bytes _ _ _ _ HN HE) in *.
Qed.
Lemma isrc_writes b s d buf pos buf' p : dstr_new_isrc s = inl d -> dstr_write b d (buf, pos) = Ok (buf', p) ->
  has buf' pos (isrc_bytes s) /\ p = pos + len (isrc_bytes s).
Proof.
  intros HN H. apply dstr_write_inv in H as (bs & HE & -> & -> & H). now rewrite (isrc_enc_bytes _ _ _ _ HN HE) in *.
Qed.
(** In the other direction: where the bytes of a text are stored, the text is read. *)
Lemma text_reads b s d buf pos : ustr_ok s -> dstr_new s = inl d -> ~ starts_like_isrc s -> (exists bs, dstr_enc b d = Ok bs) -> has buf pos (text_bytes s) ->
  rd_dstr b buf pos = Ok (d, pos + len (text_bytes s)) /\ dstr_into_string d = inl s.
Proof.
  intros HU HN HS [bs HE] HB. rewrite <- (new_enc_bytes _ _ _ _ HN HE) in *. split; [|now apply dstr_new_into].
  apply (dstr_good_wr b buf); [now apply (dstr_new_good s)|assumption|assumption].
Qed.
