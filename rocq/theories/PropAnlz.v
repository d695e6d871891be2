(** * Properties C35 to C42: analysis files *)
From Coq Require Import NArith ZArith List Bool Lia.
From Verif Require Import Base BaseFacts Utf UtfFacts Str Schema Xor XorFacts Anlz AnlzFacts AnlzSpec AnlzCodec AnlzSong AnlzSections AnlzLoop AnlzPanic AnlzFile.
Import ListNotations.
Open Scope N_scope.

(** C35 *)
Theorem c35_progress : forall b s buf pos pos', rd_section b buf pos = Ok (s, pos') -> pos + 12 <= pos' /\ pos' <= len buf.
Proof. exact section_adv. Qed.
Print Assumptions c35_progress.
(** The loop ends for every input: more rounds than there are bytes left are never needed, and then the bound on the
    rounds has no influence. *)
Theorem c35_ends : forall b final buf pos, exists r, forall fuel, (N.to_nat (len buf - pos) < fuel)%nat -> sections_loop fuel b final buf pos = Some r.
Proof.
  intros b final buf pos. destruct (loop_some b final buf (S (N.to_nat (len buf - pos))) pos) as (r & E); [lia|]. exists r. intros fuel HF.
  eapply loop_fuel; [exact E|lia].
Qed.
Print Assumptions c35_ends.
(** The sections that are returned are those that follow each other, up to the first end at or behind the announced
    one; each takes 12 bytes or more. *)
Theorem c35_sections : forall b n buf pos l p, parse_sections b n buf pos = Ok (l, p) ->
  exists final, wadd b 64 pos n = Ok final /\ sections_at b final buf pos l p /\ pos + 12 * len l <= p /\ final <= p /\ (l = [] \/ p <= len buf).
Proof.
  intros b n buf pos l p H. unfold parse_sections in H. destruct (wadd b 64 pos n) as [final| |] eqn:EW; [|easy|easy]. exists final. split; [easy|].
  destruct (sections_loop (S (length buf)) b final buf pos) as [r|] eqn:EL; [|easy]. subst r. pose proof (loop_bound _ _ _ _ _ _ _ EL) as (L1 & L2 & L3).
  apply loop_sections in EL. split; [easy|]. split; [easy|]. split; [easy|]. destruct L2 as [[-> _]|L2]; auto.
Qed.
Print Assumptions c35_sections.
(** Two unknown sections, and an announced size that ends within the second. *)
Definition c35_buf : list N := [88; 88; 88; 88; 0; 0; 0; 12; 0; 0; 0; 13; 5;  89; 89; 89; 89; 0; 0; 0; 12; 0; 0; 0; 12; 9].
Example c35_example :
  parse_sections Debug 20 c35_buf 0 =
  Ok ([{| se_header := {| h_kind := KUnknown 0x58585858; h_size := 12; h_total := 13 |}; se_content := CUnknown [] [5] |};
       {| se_header := {| h_kind := KUnknown 0x59595959; h_size := 12; h_total := 12 |}; se_content := CUnknown [] [] |}], 25).
Proof. vm_compute. reflexivity. Qed.

(** C36 *)
Theorem c36_accepted : forall b s buf pos pos', bytes_ok buf -> len buf < 2 ^ 32 -> rd_section b buf pos = Ok (s, pos') ->
  kind_fits (h_kind (se_header s)) (se_content s) /\ sizes_agree b (se_header s) (se_content s).
Proof. intros b s buf pos pos' H1 H2 H3. now apply section_rw in H3 as (_ & K & A & _). Qed.
Print Assumptions c36_accepted.
Theorem c36_panics : forall buf pos, bytes_ok buf -> len buf + 72 < 2 ^ 32 ->
  (rd_section Debug buf pos = Panic <-> exists h, header_ok h /\ has buf pos (enc_header h) /\ size_panic buf (pos + 12) h).
Proof. exact section_panic. Qed.
Print Assumptions c36_panics.
Theorem c36_release : forall buf pos, rd_section Release buf pos <> Panic.
Proof. exact section_release. Qed.
Print Assumptions c36_release.
(** A waveform preview with total_size < size: a panic or, without overflow checks, an error; a VBR section whose sizes
    agree modulo 2^32 only, and a path with the right sizes. *)
Example c36_example :
  rd_section Debug ([0x50; 0x57; 0x41; 0x56; 0; 0; 0; 20; 0; 0; 0; 19] ++ [0; 0; 0; 0; 0; 1; 0; 0]) 0 = Panic /\
  rd_section Release ([0x50; 0x57; 0x41; 0x56; 0; 0; 0; 20; 0; 0; 0; 19] ++ [0; 0; 0; 0; 0; 1; 0; 0]) 0 = Err EAssertFail /\
  rd_section Release ([0x50; 0x56; 0x42; 0x52; 255; 255; 255; 255; 0; 0; 0; 1] ++ [0; 0; 0; 7; 1; 2]) 0 =
    Ok ({| se_header := {| h_kind := KVBR; h_size := 4294967295; h_total := 1 |}; se_content := CVBR 7 [1; 2] |}, 18) /\
  rd_section Debug ([0x50; 0x50; 0x54; 0x48; 0; 0; 0; 16; 0; 0; 0; 20] ++ [0; 0; 0; 4; 0; 65; 0; 0]) 0 =
    Ok ({| se_header := {| h_kind := KPath; h_size := 16; h_total := 20 |}; se_content := CPath [65] |}, 20).
Proof. vm_compute. repeat split. Qed.

(** C37 *)
Theorem c37_comment : forall b s bs buf pos, ustr_ok s -> 2 * (len (utf16_enc s) + 1) < 2 ^ 32 -> enc_comment b s = Ok bs -> has buf pos bs ->
  (rd_comment buf pos = Ok (s, pos + len bs) <-> ~ ends_nul s).
Proof.
  intros b s bs buf pos HS HL HE HB. assert (comment_size s < 2 ^ 32) as HC by (unfold comment_size; destruct s; [reflexivity|exact HL]).
  rewrite enc_comment_ok in HE by easy. apply Ok_inj in HE as <-. rewrite (comment_wr s buf pos HS HC HB). split.
  - intros H. assert (trim_end0 s = s) as <- by congruence. apply trim_end0_not.
  - intro H. now rewrite trim_end0_id.
Qed.
Print Assumptions c37_comment.
(** What is read instead: the comment without its NUL characters at the end. *)
Theorem c37_trimmed : forall b s bs buf pos, ustr_ok s -> 2 * (len (utf16_enc s) + 1) < 2 ^ 32 -> enc_comment b s = Ok bs -> has buf pos bs ->
  exists t k, rd_comment buf pos = Ok (t, pos + len bs) /\ s = t ++ repeat 0 k /\ ~ ends_nul t.
Proof.
  intros b s bs buf pos HS HL HE HB. assert (comment_size s < 2 ^ 32) as HC by (unfold comment_size; destruct s; [reflexivity|exact HL]).
  rewrite enc_comment_ok in HE by easy. apply Ok_inj in HE as <-. rewrite (comment_wr s buf pos HS HC HB). destruct (trim_end0_zeros s) as (k & EK).
  exists (trim_end0 s), k. split; [easy|]. split; [easy|]. apply trim_end0_not.
Qed.
Print Assumptions c37_trimmed.
Theorem c37_writable : forall b s, 2 * (len (utf16_enc s) + 1) < 2 ^ 32 -> exists bs, enc_comment b s = Ok bs.
Proof.
  intros b s HL. assert (comment_size s < 2 ^ 32) as HC by (unfold comment_size; destruct s; [reflexivity|exact HL]). rewrite enc_comment_ok by easy. eauto.
Qed.
Print Assumptions c37_writable.
Example c37_example :
  enc_comment Debug [0x1F600; 65] = Ok [0; 0; 0; 8; 0xD8; 0x3D; 0xDE; 0; 0; 65; 0; 0] /\
  rd_comment [0; 0; 0; 8; 0xD8; 0x3D; 0xDE; 0; 0; 65; 0; 0] 0 = Ok ([0x1F600; 65], 12) /\
  enc_comment Debug [65; 0] = Ok [0; 0; 0; 6; 0; 65; 0; 0; 0; 0] /\
  rd_comment [0; 0; 0; 6; 0; 65; 0; 0; 0; 0] 0 = Ok ([65], 10).
Proof. repeat split. Qed.

(** C38: [n] is the stored length of the comment; [comment_size] is the canonical one. *)
Theorem c38_consumed : forall b c buf pos pos', bytes_ok buf -> len buf + 2 < 2 ^ 32 -> rd_ecue b buf pos = Ok (c, pos') ->
  exists n, has buf (pos + 40) (be_enc 4 n) /\ n < 2 ^ 32 /\
    (68 + comment_size (ec_comment c) <= h_total (ec_header c) ->
      pos' + comment_size (ec_comment c) = pos + h_total (ec_header c) + n /\
      (pos' = pos + h_total (ec_header c) <-> n = comment_size (ec_comment c))) /\
    (h_total (ec_header c) < 68 + comment_size (ec_comment c) -> pos' = pos + 68 + n).
Proof.
  intros b c buf pos pos' HB HL HR. apply ecue_inv in HR as (n & N1 & N2 & N3 & N4 & _ & _ & _ & _ & HK); [|easy].
  destruct HK as (-> & _ & _); [lia|]. exists n. split; [easy|]. split; [easy|]. split; [|lia]. intro HT. split; lia.
Qed.
Print Assumptions c38_consumed.
(** Entries with the canonical length are those that are written: they are reproduced. *)
Theorem c38_canonical : forall b c buf pos pos', bytes_ok buf -> len buf + 2 < 2 ^ 32 -> rd_ecue b buf pos = Ok (c, pos') ->
  has buf (pos + 40) (be_enc 4 (comment_size (ec_comment c))) -> exists bs, enc_ecue b c = Ok bs /\ has buf pos bs /\ pos' = pos + len bs.
Proof.
  intros b c buf pos pos' HB HL HR HC. pose proof HR as HR0. apply ecue_inv in HR as (n & N1 & N2 & N3 & N4 & _ & _ & _ & _ & HK); [|easy].
  destruct HK as (_ & _ & HK); [lia|]. apply HK. apply rd_be4_has in HC; [|lia]. apply rd_be4_has in N2; [|easy]. congruence.
Qed.
Print Assumptions c38_canonical.
(** The comment "A": stored with its terminator (length 4) or without (2), the same sizes in the header. *)
Definition c38_entry (n : N) (comment : list N) : list N :=
  [0x50; 0x43; 0x50; 0x32; 0; 0; 0; 16; 0; 0; 0; 72] ++ [0; 0; 0; 1; 1; 0; 3; 232; 0; 0; 0; 5; 255; 255; 255; 255; 0; 0; 0; 0; 0; 0; 0; 0; 0; 0; 0; 0] ++
  [0; 0; 0; n] ++ comment ++ [34; 1; 2; 3] ++ zeros 20.
Example c38_example :
  match rd_ecue Debug (c38_entry 4 [0; 65; 0; 0] ++ [9]) 0 with Ok (c, p) => ec_comment c = [65] /\ p = 72 | _ => False end /\
  match rd_ecue Debug (c38_entry 2 [0; 65] ++ [9]) 0 with Ok (c, p) => ec_comment c = [65] /\ p = 70 | _ => False end.
Proof. vm_compute. repeat split. Qed.

(** C39 *)
Theorem c39_section : forall b s buf pos bs, section_ok b s -> enc_section b s = Ok bs -> has buf pos bs ->
  rd_section b buf pos = Ok (s, pos + len bs).
Proof. exact section_wr. Qed.
Print Assumptions c39_section.
Theorem c39_writable : forall b s, section_ok b s -> exists bs, enc_section b s = Ok bs.
Proof. exact enc_section_total. Qed.
Print Assumptions c39_writable.
(** And what is read is written back as it was (extended cue lists: see C38). *)
Theorem c39_rewrite : forall b s buf pos pos', bytes_ok buf -> len buf < 2 ^ 32 -> rd_section b buf pos = Ok (s, pos') ->
  is_ecue_list (se_content s) = false -> exists bs, enc_section b s = Ok bs /\ has buf pos bs /\ pos' = pos + len bs.
Proof. intros b s buf pos pos' H1 H2 H3 H4. apply section_rw in H3 as (_ & _ & _ & H3); [|easy|easy]. now apply H3 in H4 as [_ H4]. Qed.
Print Assumptions c39_rewrite.
Theorem c39_file : forall b a bs buf pos, anlz_ok b a -> enc_anlz b a = Ok bs -> has buf pos bs -> pos + len bs < 2 ^ 64 ->
  rd_anlz b buf pos = Ok (a, pos + len bs).
Proof. intros b a bs buf pos. exact (anlz_wr b a bs buf pos). Qed.
Print Assumptions c39_file.
Theorem c39_file_rewrite : forall b a buf p, bytes_ok buf -> len buf < 2 ^ 32 -> rd_anlz b buf 0 = Ok (a, p) ->
  Forall (fun s => is_ecue_list (se_content s) = false) (an_sections a) -> enc_anlz b a = Ok (takeN p buf).
Proof. exact anlz_rw. Qed.
Print Assumptions c39_file_rewrite.
(** A file with a path, a cue list with a cue, an extended cue list with a cue, a beat grid, a waveform, an encrypted
    song structure with a phrase and an unknown section. *)
Definition c39_cue : cue :=
  {| cue_header := {| h_kind := KCue; h_size := 28; h_total := 56 |};
     cue_values := [VInt 1; VInt 4; VInt 0x10000; VInt 0xFFFF; VInt 1; VNamed 1; VInt 0; VInt 1000; VInt 5; VInt 0xFFFFFFFF; VInt 0; VInt 0; VInt 0; VInt 0] |}.
Definition c39_ecue : ecue :=
  {| ec_header := {| h_kind := KExtendedCue; h_size := 16; h_total := 73 |};
     ec_values := [VInt 1; VNamed 2; VInt 0; VInt 1000; VInt 5; VInt 9; VNamed 4; VInt 0; VInt 0; VInt 0; VInt 1; VInt 2];
     ec_comment := [65]; ec_more := [VInt 34; VInt 1; VInt 2; VInt 3; VInt 0; VInt 0; VInt 0; VInt 0; VInt 0]; ec_trailing := [99] |}.
Definition c39_song (e : bool) : song :=
  {| so_encrypted := e;
     so_data := {| sd_values := [VNamed 2; VInt 0; VInt 0; VInt 100; VInt 0; VNamed 3; VInt 0];
                   sd_phrases := [[VInt 1; VInt 1; VInt 2; VInt 0; VInt 0; VInt 0; VInt 0; VInt 0; VInt 0; VInt 0; VInt 0; VInt 0; VInt 0; VInt 0; VInt 1; VInt 0; VInt 0]] |} |}.
Definition c39_sections : list section :=
  [{| se_header := {| h_kind := KPath; h_size := 16; h_total := 22 |}; se_content := CPath [47; 0x263A] |};
   {| se_header := {| h_kind := KCueList; h_size := 24; h_total := 80 |}; se_content := CCueList (VNamed 1) 0 7 [c39_cue] |};
   {| se_header := {| h_kind := KExtendedCueList; h_size := 20; h_total := 93 |}; se_content := CExtendedCueList (VNamed 0) 0 [c39_ecue] |};
   {| se_header := {| h_kind := KBeatGrid; h_size := 24; h_total := 40 |}; se_content := CBeatGrid 0 0x800000 [[VInt 1; VInt 12800; VInt 30]; [VInt 2; VInt 12800; VInt 500]] |};
   {| se_header := {| h_kind := KWaveformColorDetail; h_size := 24; h_total := 28 |};
      se_content := CWave {| wf_type := WColorDetail; wf_unknown := Some 0x960305; wf_data := [[VInt 0x1234]; [VInt 0xFFFF]] |} |};
   {| se_header := {| h_kind := KSongStructure; h_size := 32; h_total := 56 |}; se_content := CSong (c39_song true) |};
   {| se_header := {| h_kind := KUnknown 0x58585858; h_size := 14; h_total := 15 |}; se_content := CUnknown [1; 2] [3] |}].
Definition c39_anlz : anlz :=
  {| an_header := {| h_kind := KFile; h_size := 28; h_total := 362 |}; an_header_data := [0; 0; 0; 1; 0; 1; 0; 0; 0; 1; 0; 0; 0; 0; 0; 0]; an_sections := c39_sections |}.
Lemma c39_sections_ok : Forall (section_ok Debug) c39_sections.
Proof.
  assert (forall h, ckind_ok (h_kind h) -> h_size h < 2 ^ 32 -> h_total h < 2 ^ 32 -> header_ok h) as HH by (intros; repeat split; easy).
  unfold c39_sections.
  constructor. { split; [now apply HH|]. split; [easy|]. split; [repeat constructor|split; [reflexivity|exact I]]. }
  constructor. { split; [now apply HH|]. split; [easy|]. split; [|split; [exact I|exact I]].
    split; [now right|]. split; [easy|]. split; [easy|]. split; [easy|]. constructor; [|constructor]. split; [now apply HH|]. repeat constructor. }
  constructor. { split; [now apply HH|]. split; [easy|]. split; [|split; [exact I|exact I]].
    split; [now left|]. split; [easy|]. split; [easy|]. constructor; [|constructor]. split; [now apply HH|]. split; [repeat constructor|]. split; [repeat constructor|].
    split; [repeat constructor|]. split; [intros ([|x [|y r]] & E); discriminate|]. split; [easy|]. split; [repeat constructor|easy]. }
  constructor. { split; [now apply HH|]. split; [easy|]. split; [|split; [exact I|exact I]]. split; [easy|]. split; [easy|]. split; [easy|]. repeat constructor. }
  constructor. { split; [now apply HH|]. split; [easy|]. split; [|split; [reflexivity|exact I]]. split; [easy|]. repeat constructor. }
  constructor. { split; [now apply HH|]. split; [easy|]. split; [|split; [reflexivity|exact I]]. split; [split; repeat constructor|split; [easy|easy]]. }
  constructor; [|constructor]. split; [apply HH; try easy; split; [easy|]; cbn; intuition discriminate|]. split; [now eexists|].
  split; [split; repeat constructor|split; reflexivity].
Qed.
Example c39_example :
  anlz_ok Debug c39_anlz /\
  match enc_anlz Debug c39_anlz with Ok bs => len bs = 362 /\ rd_anlz Debug bs 0 = Ok (c39_anlz, 362) | _ => False end.
Proof.
  split; [|vm_compute; split; reflexivity]. split; [repeat split|]. split; [reflexivity|]. split; [repeat constructor|]. split; [reflexivity|]. split; [exact c39_sections_ok|].
  eexists. split; vm_compute; reflexivity.
Qed.

(** C40: whatever the length of a list of cues, what is read back is its beginning. *)
Theorem c40_cue_list : forall b h ty u mc cues bs buf pos,
  h_kind h = KCueList -> u32_list_type ty -> u < 2 ^ 16 -> mc < 2 ^ 32 -> Forall cue_ok cues ->
  enc_content b (CCueList ty u mc cues) = Ok bs -> has buf pos bs ->
  exists p, rd_content b h buf pos = Ok (CCueList ty u mc (takeN (len cues mod 2 ^ 16) cues), p).
Proof. exact cue_list_prefix. Qed.
Print Assumptions c40_cue_list.
Theorem c40_extended_cue_list : forall b h ty cues bs buf pos,
  h_kind h = KExtendedCueList -> u32_list_type ty -> Forall ecue_ok cues ->
  enc_content b (CExtendedCueList ty 0 cues) = Ok bs -> has buf pos bs ->
  exists p, rd_content b h buf pos = Ok (CExtendedCueList ty 0 (takeN (len cues mod 2 ^ 16) cues), p).
Proof. exact ecue_list_prefix. Qed.
Print Assumptions c40_extended_cue_list.
Theorem c40_limit : forall A (l : list A), takeN (len l mod 2 ^ 16) l = l <-> len l < 2 ^ 16.
Proof. exact @take_mod_iff. Qed.
Print Assumptions c40_limit.
(** Song structures with more phrases are never the result of a read. *)
Theorem c40_song : forall b h s buf pos p, bytes_ok buf -> 2 ^ 16 <= len (sd_phrases (so_data s)) -> rd_song b h buf pos <> Ok (s, p).
Proof. intros b h s buf pos p HB HL HR. apply song_read_length in HR; [|easy]. lia. Qed.
Print Assumptions c40_song.
(** 65537 cues can be written; one is read back. *)
Lemma enc_all_repeat {A} (f : A -> res (list N)) x a n : f x = Ok a -> enc_all f (repeat x n) = Ok (concat (repeat a n)).
Proof. intro H. induction n as [|n IH]; [reflexivity|]. cbn [repeat enc_all concat]. rewrite H. cbn [bind]. rewrite IH. reflexivity. Qed.
Lemma c40_many h n : h_kind h = KCueList -> exists bs p, enc_content Debug (CCueList (VNamed 1) 0 0 (repeat c39_cue n)) = Ok bs /\
  rd_content Debug h bs 0 = Ok (CCueList (VNamed 1) 0 0 (takeN (len (repeat c39_cue n) mod 2 ^ 16) (repeat c39_cue n)), p).
Proof.
  intro HK. assert (exists a, enc_cue Debug c39_cue = Ok a) as [a Ha] by (eexists; vm_compute; reflexivity).
  assert (exists bs, enc_content Debug (CCueList (VNamed 1) 0 0 (repeat c39_cue n)) = Ok bs) as [bs HE].
  { cbn [enc_content]. rewrite (enc_all_repeat _ _ _ _ Ha). eexists. reflexivity. }
  destruct (c40_cue_list Debug h (VNamed 1) 0 0 (repeat c39_cue n) bs bs 0 HK) as [p HP]; [now right|easy|easy| |exact HE|exists [], []; now rewrite app_nil_r|].
  - apply Forall_forall. intros c HC. apply repeat_spec in HC as ->. split; [repeat split; easy|repeat constructor].
  - now exists bs, p.
Qed.
Lemma c40_take {A} (x : A) m n : (m <= n)%nat -> takeN (N.of_nat m) (repeat x n) = repeat x m.
Proof. unfold takeN. rewrite Nat2N.id. revert n. induction m as [|m IH]; intros n H; [reflexivity|]. destruct n as [|n]; [lia|]. cbn [firstn repeat]. now rewrite IH by lia. Qed.
Example c40_example :
  let h := {| h_kind := KCueList; h_size := 24; h_total := 24 |} in
  exists bs p, enc_content Debug (CCueList (VNamed 1) 0 0 (repeat c39_cue (N.to_nat 65537))) = Ok bs /\ rd_content Debug h bs 0 = Ok (CCueList (VNamed 1) 0 0 [c39_cue], p).
Proof.
  intro h. assert (forall n, N.of_nat n mod 2 ^ 16 = 1 -> exists bs p, enc_content Debug (CCueList (VNamed 1) 0 0 (repeat c39_cue n)) = Ok bs /\ rd_content Debug h bs 0 = Ok (CCueList (VNamed 1) 0 0 [c39_cue], p)) as H.
  { intros n HN. destruct (c40_many h n eq_refl) as (bs & p & H1 & H2). exists bs, p. split; [exact H1|]. rewrite H2. unfold len. rewrite repeat_length, HN. assert (takeN 1 (repeat c39_cue n) = [c39_cue]) as -> by (apply (c40_take c39_cue 1 n); destruct n; [easy|lia]). reflexivity. }
  apply H. rewrite N2Nat.id. reflexivity.
Qed.

(** C41: [m] is the code of the mood; the first two bytes of the data are the mood, big endian.  With overflow checks
    the key cannot be computed for more than 65310 phrases. *)
Theorem c41_plain : forall b m n, valid_mood m -> (b = Debug -> n <= 65310) -> check_if_encrypted b [0; m] n = Ok false.
Proof. intros b m n HM HN. apply check_plain; [easy|]. apply key_fits_2. destruct b; auto. Qed.
Print Assumptions c41_plain.
Theorem c41_encrypted : forall b m n, valid_mood m -> (b = Debug -> n <= 65310) ->
  check_if_encrypted b (xor_cycle (song_key n) 0 [0; m]) n = Ok true.
Proof.
  intros b m n HM HN. change (xor_cycle (song_key n) 0 [0; m]) with [N.lxor 0 (key0 n); N.lxor m (key1 n)]. rewrite N.lxor_0_l.
  apply check_encrypted; [easy|]. apply key_fits_2. destruct b; auto.
Qed.
Print Assumptions c41_encrypted.
(** What is detected is exactly an encrypted mood. *)
Theorem c41_exact : forall b x y n, x < 256 -> y < 256 -> (b = Debug -> n <= 65310) ->
  (check_if_encrypted b [x; y] n = Ok true <-> exists m, valid_mood m /\ [x; y] = xor_cycle (song_key n) 0 [0; m]).
Proof.
  intros b x y n HX HY HN. rewrite check_true; [|easy|easy|apply key_fits_2; destruct b; auto]. split; intros (m & HM & E).
  - destruct E as [-> ->]. exists m. split; [easy|]. change (xor_cycle (song_key n) 0 [0; m]) with [N.lxor 0 (key0 n); N.lxor m (key1 n)]. now rewrite N.lxor_0_l.
  - exists m. split; [easy|]. change (xor_cycle (song_key n) 0 [0; m]) with [N.lxor 0 (key0 n); N.lxor m (key1 n)] in E. rewrite N.lxor_0_l in E. now injection E.
Qed.
Print Assumptions c41_exact.
Theorem c41_limit : forall raw n, 65310 < n -> check_if_encrypted Debug raw n = Panic.
Proof. intros raw n HN. unfold check_if_encrypted. now rewrite get_key_2_panic. Qed.
Print Assumptions c41_limit.
(** 35 phrases: the second key byte is 4, so an encrypted mood 3 is 7; a plain mood 3 has the first byte 0. *)
Example c41_example :
  song_key 35 = [238; 4; 17; 29; 8; 17; 208; 17; 12; 245; 12; 14; 4; 12; 22; 11; 12; 23; 4] /\
  check_if_encrypted Debug [238; 7] 35 = Ok true /\ check_if_encrypted Debug [0; 3] 35 = Ok false /\ check_if_encrypted Debug [0; 3] 65311 = Panic.
Proof. vm_compute. repeat split. Qed.

(** C42 *)
Theorem c42_song : forall b h s buf pos bs,
  song_data_ok (so_data s) -> song_fits b s -> h_size h + 24 * len (sd_phrases (so_data s)) = h_total h ->
  enc_song b s = Ok bs -> has buf pos bs -> rd_song b h buf pos = Ok (s, pos + len bs).
Proof. exact song_wr. Qed.
Print Assumptions c42_song.
(** The encrypted bytes differ from the plain ones by the key, and only there. *)
Theorem c42_bytes : forall b d n, song_data_ok d -> (b = Debug -> n <= 65285) ->
  exists plain, enc_encrypted b false n d = Ok plain /\ enc_encrypted b true n d = Ok (xor_cycle (song_key n) 0 plain) /\ len plain = 14 + 24 * len (sd_phrases d).
Proof.
  intros b d n HD HN. destruct (song_data_enc b d HD) as (plain & E & L). exists plain. cbn [enc_encrypted]. split; [easy|]. split; [|easy].
  rewrite get_key_19 by (apply key_fits_19; destruct b; auto). cbn [res_bind]. now rewrite E.
Qed.
Print Assumptions c42_bytes.
(** With overflow checks, encryption panics above 65285 phrases, where without them all numbers of phrases work. *)
Theorem c42_limit : forall d n, 65285 < n -> enc_encrypted Debug true n d = Panic.
Proof. intros d n HN. cbn [enc_encrypted]. now rewrite get_key_19_panic. Qed.
Print Assumptions c42_limit.
Example c42_example :
  match enc_song Debug (c39_song true), enc_song Debug (c39_song false) with
  | Ok e, Ok p => takeN 8 e = [0; 0; 0; 24; 0; 1; 204; 224] /\ takeN 8 p = [0; 0; 0; 24; 0; 1; 0; 2] /\
      rd_song Debug {| h_kind := KSongStructure; h_size := 32; h_total := 56 |} e 0 = Ok (c39_song true, 44) /\
      rd_song Debug {| h_kind := KSongStructure; h_size := 32; h_total := 56 |} p 0 = Ok (c39_song false, 44)
  | _, _ => False
  end.
Proof. vm_compute. repeat split. Qed.
