(** * Property C112: which sections of analysis files are accepted *)
From Coq Require Import NArith ZArith List Bool String Lia.
From Coq Require Import ZifyBool ZifyNat ZifyN.
From Verif Require Import Base BaseFacts Utf Schema SchemaFacts Xor Anlz AnlzFacts AnlzSections AnlzSong AnlzPanic Layout LayoutAnlz Accept AcceptAll.
Import ListNotations.
Open Scope N_scope.

(** In all theorems [s] and [t] are the two sizes in the header of the section; [span b s t] is their difference, as the build computes it. *)

(** A section with an index for variable bit rates is read if and only if the announced bytes are there, behind a number of four bytes. *)
Theorem c112_vbr : forall b buf pos s t, bytes_ok buf -> has buf pos (letters "PVBR") -> number_be buf (pos + 4) 4 = Some s -> number_be buf (pos + 8) 4 = Some t ->
  ((exists c p, rd_section b buf pos = Ok (c, p)) <-> pos + 16 <= len buf /\ exists cs, span b s t = Some cs /\ pos + 16 + cs <= len buf).
Proof. exact vbr_accepts. Qed.
Print Assumptions c112_vbr.
(** A section of a kind that is not known is read if and only if the announced header and contents are there. *)
Theorem c112_unknown : forall b buf pos s t, bytes_ok buf -> (forall x k, In (x, k) kind_letters -> ~ has buf pos (letters x)) ->
  number_be buf (pos + 4) 4 = Some s -> number_be buf (pos + 8) 4 = Some t ->
  ((exists c p, rd_section b buf pos = Ok (c, p)) <-> exists r cs, span b 12 s = Some r /\ span b s t = Some cs /\ pos + 12 + r + cs <= len buf).
Proof. exact unknown_accepts. Qed.
Print Assumptions c112_unknown.
(** A waveform is read if and only if the sizes in the header leave room for exactly the columns that it announces, all of them are there, a column has the width that it should have, and
    the fixed number is right that two of the kinds have. *)
Theorem c112_wave : forall b buf pos s t w, bytes_ok buf -> len buf < 2 ^ 32 -> has buf pos (letters (wave_letters w)) ->
  number_be buf (pos + 4) 4 = Some s -> number_be buf (pos + 8) 4 = Some t ->
  ((exists c p, rd_section b buf pos = Ok (c, p)) <-> exists n, span b s t = Some (wave_width w * n) /\ pos + wave_data w + wave_width w * n <= len buf /\
    match w with WPreview | WTiny => number_be buf (pos + 12) 4 = Some n | _ => number_be buf (pos + 12) 4 = Some (wave_width w) /\ number_be buf (pos + 16) 4 = Some n end /\
    match w with WDetail | W3Detail => number_be buf (pos + 20) 4 = Some 0x00960000 | _ => True end).
Proof. exact wave_accepts. Qed.
Print Assumptions c112_wave.
(** A path is read if and only if it ends with its first zero unit, and both the number in front of it and the sizes in the header count exactly the bytes up to there. *)
Theorem c112_path : forall b buf pos s t, bytes_ok buf -> len buf < 2 ^ 32 -> has buf pos (letters "PPTH") -> number_be buf (pos + 4) 4 = Some s -> number_be buf (pos + 8) 4 = Some t ->
  ((exists c p, rd_section b buf pos = Ok (c, p)) <-> exists m, span b s t = Some (2 * m + 2) /\ number_be buf (pos + 12) 4 = Some (2 * m + 2) /\
    number_be buf (pos + 16 + 2 * m) 2 = Some 0 /\ forall i, i < m -> exists u, number_be buf (pos + 16 + 2 * i) 2 = Some u /\ u <> 0).
Proof. exact path_accepts. Qed.
Print Assumptions c112_path.
(** A song structure is read if and only if the sizes leave room for exactly its phrases, all of them are there, and mood and bank are known, either as they are or with the mask taken off.
    In debug builds there is a limit for the number of phrases, which is lower with the mask. *)
Theorem c112_song : forall b buf pos s t n, bytes_ok buf -> has buf pos (letters "PSSI") -> number_be buf (pos + 4) 4 = Some s -> number_be buf (pos + 8) 4 = Some t -> number_be buf (pos + 16) 2 = Some n ->
  ((exists c p, rd_section b buf pos = Ok (c, p)) <-> number_be buf (pos + 12) 4 = Some 24 /\ span b s t = Some (24 * n) /\ pos + 32 + 24 * n <= len buf /\
   exists buf', (masked n (pos + 18) buf buf' /\ room b n 65285 \/ buf' = buf /\ room b n 65310) /\
     (exists m, number_be buf' (pos + 18) 2 = Some m /\ 1 <= m <= 3) /\ exists x, getN buf' (pos + 30) = Some x /\ x <= 8).
Proof. exact song_section_accepts. Qed.
Print Assumptions c112_song.
(** The letters of whole files and of single cues do not start a section. *)
Theorem c112_refused : forall b buf pos x k p, bytes_ok buf -> In (x, k) [("PMAI", KFile); ("PCPT", KCue); ("PCP2", KExtendedCue)]%string -> has buf pos (letters x) ->
  forall c, rd_section b buf pos <> Ok (c, p).
Proof. exact kind_refused. Qed.
Print Assumptions c112_refused.

(** ** Examples: both sides of each equivalence *)
Definition c112_ok {A} (r : res A) : bool := match r with Ok _ => true | _ => false end.
Definition c112_head (x : string) (s t : N) : list N := letters x ++ [0; 0; 0; s; 0; 0; 0; t].
Definition c112_path_of (t n : N) (us : list N) : list N := c112_head "PPTH" 16 t ++ [0; 0; 0; n] ++ us.
Definition c112_wave_of (t e n f : N) : list N := c112_head "PWV3" 24 t ++ [0; 0; 0; e; 0; 0; 0; n; 0; f; 0; 0] ++ [1; 2].
Definition c112_song_of (t m k : N) : list N := c112_head "PSSI" 32 t ++ [0; 0; 0; 24; 0; 0; 0; m] ++ repeat 0 10 ++ [k; 0].
Example c112_example :
  bytes_ok (c112_path_of 20 4 [0; 65; 0; 0]) /\ has (c112_path_of 20 4 [0; 65; 0; 0]) 0 (letters "PPTH") /\ number_be (c112_path_of 20 4 [0; 65; 0; 0]) 8 4 = Some 20 /\
  span Debug 16 20 = Some 4 /\ span Debug 20 16 = None /\ span Release 20 16 = Some 4294967292 /\
  map (fun l => c112_ok (rd_section Debug l 0)) [c112_path_of 20 4 [0; 65; 0; 0]; c112_path_of 20 4 [0; 0; 0; 65]; c112_path_of 21 4 [0; 65; 0; 0]; c112_path_of 20 5 [0; 65; 0; 0]; c112_path_of 16 0 []] = [true; false; false; false; false] /\
  map (fun l => c112_ok (rd_section Debug l 0)) [c112_wave_of 26 1 2 150; c112_wave_of 26 1 2 151; c112_wave_of 26 2 2 150; c112_wave_of 25 1 2 150; c112_wave_of 27 1 3 150] = [true; false; false; false; false] /\
  map (fun l => c112_ok (rd_section Debug l 0)) [c112_song_of 32 1 8; c112_song_of 32 3 0; c112_song_of 32 4 0; c112_song_of 32 1 9; c112_song_of 33 1 8] = [true; true; false; false; false] /\
  c112_ok (rd_section Debug (c112_head "PSSI" 32 32 ++ [0; 0; 0; 24; 0; 0] ++ [0xCB; 0xE0] ++ repeat 0 10 ++ [N.lxor 0xE1 5; 0]) 0) = true /\
  map (fun l => c112_ok (rd_section Debug l 0)) [c112_head "PVBR" 16 18 ++ [0; 0; 0; 0; 7; 7]; c112_head "PVBR" 16 19 ++ [0; 0; 0; 0; 7; 7]; c112_head "PXXX" 14 18 ++ repeat 0 6; c112_head "PXXX" 14 19 ++ repeat 0 6; c112_head "PMAI" 12 12] = [true; false; true; false; false].
Proof. split; [repeat constructor|]. split; [now eexists [], _|]. repeat (split; [vm_compute; reflexivity|]). vm_compute. reflexivity. Qed.
