(** * Properties C01 to C07: DeviceSQL strings *)
From Coq Require Import NArith List Bool.
From Verif Require Import Base BaseFacts Utf UtfFacts Str StrFacts.
Import ListNotations.
Open Scope N_scope.

(** C01 *)
Theorem c01_new_into_string : forall s d,
  ustr_ok s -> dstr_new s = inl d -> dstr_into_string d = inl s.
Proof. exact dstr_new_into. Qed.
Print Assumptions c01_new_into_string.
Example c01_example : ustr_ok [72; 228; 0x1F600] /\ dstr_new [72; 228; 0x1F600] = inl (DSUcs2 [72; 228; 0xD83D; 0xDE00]).
Proof. split; [repeat constructor|reflexivity]. Qed.

(** C02 *)
Theorem c02_length_limit : forall s, (exists e, dstr_new s = inr e) <-> 32767 < utf8_len s.
Proof. exact dstr_new_err. Qed.
Print Assumptions c02_length_limit.
Theorem c02_error_kind : forall s e, dstr_new s = inr e -> e = TooLong.
Proof. exact dstr_new_err_kind. Qed.
Print Assumptions c02_error_kind.
(** Not every string that [new] accepts can be written: with overflow checks on, writing panics for exactly one length
    of non-ASCII strings. *)
Theorem c02_accepted_but_not_writable : forall s d, dstr_new s = inl d ->
  ((exists bs, dstr_enc Debug d = Ok bs) <-> ~ (is_ascii s = false /\ len (utf16_enc s) = 32766)).
Proof. exact dstr_new_writable. Qed.
Print Assumptions c02_accepted_but_not_writable.
(** Such a string: 32765 times "a", then "ä". *)
Example c02_example :
  let s := repeat 97 (N.to_nat 32765) ++ [228] in
  match dstr_new s with inl d => dstr_enc Debug d = Panic | inr _ => False end /\ len (utf16_enc s) = 32766.
Proof. vm_compute. split; reflexivity. Qed.
Example c02_example_too_long : dstr_new (repeat 97 (N.to_nat 32768)) = inr TooLong.
Proof. vm_compute. reflexivity. Qed.

(** C03 *)
Theorem c03_write_read : forall b s d buf pos buf' pos',
  ustr_ok s -> dstr_new s = inl d -> dstr_write b d (buf, pos) = Ok (buf', pos') ->
  (rd_dstr b buf' pos = Ok (d, pos') <->
   ~ (starts_like_isrc s /\ exists i, pos + 5 <= i /\ getN buf' i = Some 0)).
Proof. exact dstr_new_write_read. Qed.
Print Assumptions c03_write_read.
Example c03_example_good :
  dstr_new [228] = inl (DSUcs2 [228]) /\
  dstr_write Debug (DSUcs2 [228]) ([7; 7; 7; 7; 7; 7; 7; 0], 1) = Ok ([7; 0x90; 6; 0; 0; 228; 0; 0], 7) /\
  rd_dstr Debug [7; 0x90; 6; 0; 0; 228; 0; 0] 1 = Ok (DSUcs2 [228], 7).
Proof. repeat split. Qed.
(** U+0103 is such a string: the zero byte behind it makes the reader return the ISRC string with the one byte 1. *)
Example c03_example_bad :
  starts_like_isrc [0x103] /\ dstr_new [0x103] = inl (DSUcs2 [0x103]) /\
  dstr_write Debug (DSUcs2 [0x103]) ([7; 7; 7; 7; 7; 7; 7; 0], 1) = Ok ([7; 0x90; 6; 0; 0; 3; 1; 0], 7) /\
  rd_dstr Debug [7; 0x90; 6; 0; 0; 3; 1; 0] 1 = Ok (DSIsrc [1], 8).
Proof. repeat split. now exists 0x103, []. Qed.

(** C04 *)
Theorem c04_read_write_back : forall b buf pos d pos',
  bytes_ok buf -> len buf < 2 ^ 64 - 1 -> rd_dstr b buf pos = Ok (d, pos') ->
  (dstr_write b d (buf, pos) = Ok (buf, pos') <->
   forall v, d = DSIsrc v ->
     has buf (pos + 1) (le_enc 2 (len v + 6)) /\ (len v + 6 < 65536 \/ (b = Release /\ len v + 2 < 65536))).
Proof. exact dstr_read_write_back. Qed.
Print Assumptions c04_read_write_back.
Example c04_example :
  rd_dstr Debug [0x40; 6; 0; 0; 65; 66; 9] 0 = Ok (DSAscii [65; 66], 6) /\
  rd_dstr Debug [0x90; 99; 0; 0; 3; 65; 0] 0 = Ok (DSIsrc [65], 7) /\
  dstr_write Debug (DSIsrc [65]) ([0x90; 99; 0; 0; 3; 65; 0], 0) = Ok ([0x90; 7; 0; 0; 3; 65; 0], 7).
Proof. repeat split. Qed.

(** C05.  A value in memory satisfies [dstr_inv], see [c05_invariant]. *)
Theorem c05_heap_size : forall b d buf pos buf' pos',
  dstr_inv d -> dstr_write b d (buf, pos) = Ok (buf', pos') -> pos' - pos < 65536 ->
  dstr_heap b d = Ok (pos' - pos).
Proof. exact dstr_write_size. Qed.
Print Assumptions c05_heap_size.
Theorem c05_heap_size_debug : forall d buf pos buf' pos',
  dstr_inv d -> dstr_write Debug d (buf, pos) = Ok (buf', pos') -> dstr_heap Debug d = Ok (pos' - pos).
Proof. exact dstr_write_size_debug. Qed.
Print Assumptions c05_heap_size_debug.
Theorem c05_invariant :
  (forall s d, ustr_ok s -> dstr_new s = inl d -> dstr_inv d) /\
  (forall s d, dstr_new_isrc s = inl d -> dstr_inv d) /\
  dstr_inv dstr_empty /\
  (forall b buf pos d pos', bytes_ok buf -> len buf < 2 ^ 64 - 1 -> rd_dstr b buf pos = Ok (d, pos') -> dstr_inv d).
Proof. exact dstr_inv_established. Qed.
Print Assumptions c05_invariant.
(** With overflow checks off the prediction is wrong for the string of [c02_example]: 65536 bytes are written and 0
    are predicted. *)
Theorem c05_release_refuted : exists s d bs,
  dstr_new s = inl d /\ dstr_enc Release d = Ok bs /\ len bs = 65536 /\ dstr_heap Release d = Ok 0.
Proof. exact dstr_heap_release_wraps. Qed.
Print Assumptions c05_release_refuted.
Example c05_example :
  dstr_inv (DSIsrc [65; 66]) /\ dstr_write Debug (DSIsrc [65; 66]) ([], 0) = Ok ([0x90; 8; 0; 0; 3; 65; 66; 0], 8).
Proof. split; [repeat constructor|reflexivity]. Qed.

(** C06 *)
Theorem c06_reader_panics : forall b buf pos,
  bytes_ok buf ->
  (rd_dstr b buf pos = Panic <->
   b = Debug /\ (getN buf pos = Some 1 \/
                 exists h lo hi, getN buf pos = Some h /\ h mod 2 = 0 /\ getN buf (pos + 1) = Some lo /\
                                 getN buf (pos + 2) = Some hi /\ lo + 256 * hi < 4)).
Proof. exact rd_dstr_panic. Qed.
Print Assumptions c06_reader_panics.
Example c06_example : rd_dstr Debug [9; 1] 1 = Panic /\ rd_dstr Debug [0x90; 3; 0; 5] 0 = Panic /\
  rd_dstr Debug [0x90; 4; 0; 0] 0 = Ok (DSUcs2 [], 4).
Proof. repeat split. Qed.

(** C07 *)
Theorem c07_isrc_accepts : forall s,
  (exists d, dstr_new_isrc s = inl d) <-> s = [] \/ (length s = 12%nat /\ is_ascii s = true).
Proof. exact dstr_new_isrc_ok. Qed.
Print Assumptions c07_isrc_accepts.
Theorem c07_isrc_into_string : forall s d, dstr_new_isrc s = inl d -> dstr_into_string d = inl s /\ dstr_inv d.
Proof. exact dstr_new_isrc_into. Qed.
Print Assumptions c07_isrc_into_string.
(** The value read back is the part of [s] before its first NUL, so it is [s] iff there is none. *)
Theorem c07_isrc_write_read : forall b s d buf pos buf' pos',
  s <> [] -> dstr_new_isrc s = inl d -> dstr_write b d (buf, pos) = Ok (buf', pos') ->
  match rd_dstr b buf' pos with
  | Ok (d', p) => exists t u, s = t ++ u /\ (u = [] \/ hd 1 u = 0) /\ Forall (fun c => c <> 0) t /\
                              d' = DSIsrc t /\ p = pos + 4 + 1 + len t + 1
  | _ => False
  end.
Proof. exact dstr_isrc_write_read. Qed.
Print Assumptions c07_isrc_write_read.
Example c07_example :
  dstr_new_isrc [71;66;65;89;69;54;55;48;48;49;52;57] = inl (DSIsrc [71;66;65;89;69;54;55;48;48;49;52;57]) /\
  (exists buf, dstr_write Debug (DSIsrc [71;66;65;89;69;54;55;48;48;49;52;57]) ([], 0) = Ok (buf, 18)) /\
  dstr_new_isrc [65] = inr InvalidISRC.
Proof. repeat split. eexists. reflexivity. Qed.
