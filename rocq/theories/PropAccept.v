(** * Property C111: which entries of analysis files are accepted *)
From Coq Require Import NArith ZArith List Bool String Lia.
From Coq Require Import ZifyBool ZifyNat ZifyN.
From Verif Require Import Base BaseFacts Utf Schema SchemaFacts Xor Anlz AnlzFacts AnlzSections AnlzPanic Layout LayoutAnlz Accept.
Import ListNotations.
Open Scope N_scope.

(** A cue is read if and only if its 56 bytes are there and the byte for its type is 1 or 2; nothing else about it matters. *)
Theorem c111_cue : forall buf pos, bytes_ok buf -> pos <= len buf ->
  ((exists c p, rd_cue buf pos = Ok (c, p)) <-> pos + 56 <= len buf /\ (getN buf (pos + 28) = Some 1 \/ getN buf (pos + 28) = Some 2)).
Proof. exact cue_accepts. Qed.
Print Assumptions c111_cue.
(** An extended cue that is read has a type of 1 or 2 and a colour from 0 to 8. *)
Theorem c111_extended_codes : forall b buf pos c p, bytes_ok buf -> rd_ecue b buf pos = Ok (c, p) ->
  (getN buf (pos + 16) = Some 1 \/ getN buf (pos + 16) = Some 2) /\ exists x, getN buf (pos + 28) = Some x /\ x <= 8.
Proof. exact ecue_codes. Qed.
Print Assumptions c111_extended_codes.
(** If it has no comment, that is all, besides that its 68 bytes, or as many as its header announces, are there. *)
Theorem c111_extended : forall b buf pos t, bytes_ok buf -> number_be buf (pos + 8) 4 = Some t -> number_be buf (pos + 40) 4 = Some 0 ->
  ((exists c p, rd_ecue b buf pos = Ok (c, p)) <->
   pos + N.max 68 t <= len buf /\ (getN buf (pos + 16) = Some 1 \/ getN buf (pos + 16) = Some 2) /\ exists x, getN buf (pos + 28) = Some x /\ x <= 8).
Proof. exact ecue_accepts. Qed.
Print Assumptions c111_extended.
(** A list of cues is read if and only if its type is 0 or 1, all announced cues are there, and each of them can be read.  One bad cue makes the whole section unreadable.  The sizes in
    the header of the section and the number of memory cues do not matter. *)
Theorem c111_cue_list : forall b buf pos n, bytes_ok buf -> has buf pos (letters "PCOB") -> number_be buf (pos + 18) 2 = Some n ->
  ((exists s p, rd_section b buf pos = Ok (s, p)) <->
   pos + 24 + 56 * n <= len buf /\ (number_be buf (pos + 12) 4 = Some 0 \/ number_be buf (pos + 12) 4 = Some 1) /\
   forall i, i < n -> getN buf (pos + 24 + 56 * i + 28) = Some 1 \/ getN buf (pos + 24 + 56 * i + 28) = Some 2).
Proof. exact cue_list_accepts. Qed.
Print Assumptions c111_cue_list.
(** A beat grid is read if and only if all announced beats are there. *)
Theorem c111_beat_grid : forall b buf pos n, bytes_ok buf -> has buf pos (letters "PQTZ") -> number_be buf (pos + 20) 4 = Some n ->
  ((exists s p, rd_section b buf pos = Ok (s, p)) <-> pos + 24 + 8 * n <= len buf).
Proof. exact beat_grid_accepts. Qed.
Print Assumptions c111_beat_grid.
(** The data of a song structure, decrypted if need be: the mood is from 1 to 3, the bank from 0 to 8, and all phrases are there. *)
Theorem c111_song : forall buf pos n, pos <= len buf ->
  ((exists d p, rd_song_data n buf pos = Ok (d, p)) <->
   pos + 14 + 24 * n <= len buf /\ (exists m, number_be buf pos 2 = Some m /\ 1 <= m <= 3) /\ exists x, getN buf (pos + 12) = Some x /\ x <= 8).
Proof. exact song_accepts. Qed.
Print Assumptions c111_song.

(** ** Examples: both sides of each equivalence *)
Definition c111_entry (t : N) : list N := letters "PCPT" ++ repeat 0 24 ++ [t] ++ repeat 0 27.
Definition c111_list (k t : N) : list N := letters "PCOB" ++ repeat 0 8 ++ [0; 0; 0; k; 0; 0; 0; 2; 0; 0; 0; 0] ++ c111_entry 1 ++ c111_entry t.
Definition c111_extended_entry (t x : N) : list N := letters "PCP2" ++ [0; 0; 0; 16; 0; 0; 0; 70] ++ [0; 0; 0; 0; t] ++ repeat 0 11 ++ [x] ++ repeat 0 41.
Definition c111_ok {A} (r : res A) : bool := match r with Ok _ => true | _ => false end.
Example c111_example :
  has (c111_list 1 2) 0 (letters "PCOB") /\ number_be (c111_list 1 2) 18 2 = Some 2 /\ bytes_ok (c111_list 1 2) /\
  map (fun q => c111_ok (rd_section Debug (c111_list (fst q) (snd q)) 0)) [(0, 1); (1, 2); (2, 2); (1, 0); (1, 3)] = [true; true; false; false; false] /\
  number_be (c111_extended_entry 2 7) 8 4 = Some 70 /\ number_be (c111_extended_entry 2 7) 40 4 = Some 0 /\
  map (fun q => c111_ok (rd_ecue Debug (c111_extended_entry (fst q) (snd q)) 0)) [(1, 0); (2, 7); (1, 8); (1, 9); (3, 8)] = [true; true; true; false; false] /\
  map (fun q => c111_ok (rd_song_data 0 ([0; fst q] ++ repeat 0 10 ++ [snd q; 0]) 0)) [(1, 0); (3, 8); (0, 0); (4, 0); (1, 9)] = [true; true; false; false; false] /\
  c111_ok (rd_section Debug (letters "PQTZ" ++ repeat 0 19 ++ [1] ++ repeat 0 8) 0) = true /\ c111_ok (rd_section Debug (letters "PQTZ" ++ repeat 0 19 ++ [2] ++ repeat 0 8) 0) = false.
Proof. split; [now eexists [], _|]. split; [reflexivity|]. split; [repeat constructor|]. repeat (split; [vm_compute; reflexivity|]). vm_compute. reflexivity. Qed.
