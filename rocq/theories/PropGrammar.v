(** * Property C114: a grammar of the analysis files that are accepted *)
From Coq Require Import NArith ZArith List Bool String Lia.
From Coq Require Import ZifyBool ZifyNat ZifyN.
From Verif Require Import Base BaseFacts Utf Schema SchemaFacts Xor Anlz AnlzFacts AnlzSections AnlzPanic AnlzLoop Layout LayoutAnlz Accept AcceptAll AcceptCue Grammar Robust.
Import ListNotations.
Open Scope N_scope.

(** A section is read, up to [fin], if and only if the grammar has a section from [pos] to [fin]. *)
Theorem c114_section : forall b buf pos s t fin, bytes_ok buf -> len buf < 2 ^ 31 -> number_be buf (pos + 4) 4 = Some s -> number_be buf (pos + 8) 4 = Some t ->
  ((exists c, rd_section b buf pos = Ok (c, fin)) <-> section_in b buf pos s t fin).
Proof. exact section_exact. Qed.
Print Assumptions c114_section.
(** A file is read, up to [fin], if and only if the grammar has a file from [pos] to [fin]. *)
Theorem c114_file : forall b buf pos fin, bytes_ok buf -> len buf < 2 ^ 31 -> ((exists a, rd_anlz b buf pos = Ok (a, fin)) <-> file_in b buf pos fin).
Proof. exact file_exact. Qed.
Print Assumptions c114_file.
(** The grammar is not ambiguous. *)
Theorem c114_unique : forall b buf pos f g, bytes_ok buf -> len buf < 2 ^ 31 -> file_in b buf pos f -> file_in b buf pos g -> f = g.
Proof. intros b buf pos f g HB HL HF HG. apply (file_exact b buf pos f HB HL) in HF as [x X]. apply (file_exact b buf pos g HB HL) in HG as [y Y]. congruence. Qed.
Print Assumptions c114_unique.
(** Anything else is refused, with an error in release builds, with an error or a panic in debug builds. *)
Theorem c114_refused : forall b buf pos, bytes_ok buf -> len buf < 2 ^ 31 -> ~ (exists fin, file_in b buf pos fin) -> (exists e, rd_anlz b buf pos = Err e) \/ b = Debug /\ rd_anlz b buf pos = Panic.
Proof.
  intros b buf pos HB HL HN. destruct (rd_anlz b buf pos) as [[a p]|e|] eqn:E; [|left; now exists e|right; destruct b; [now split|destruct (anlz_release buf pos E)]]. destruct HN. exists p. apply file_exact; [exact HB|exact HL|]. now exists a.
Qed.
Print Assumptions c114_refused.

(** ** Example: a file with a path, an index and a section of an unknown kind, as the grammar has it and as it is read *)
Definition c114_head (x : string) (s t : N) : list N := letters x ++ [0; 0; 0; s; 0; 0; 0; t].
Definition c114_buf : list N := c114_head "PMAI" 14 70 ++ [1; 2] ++ (c114_head "PPTH" 16 20 ++ [0; 0; 0; 4; 0; 65; 0; 0]) ++ (c114_head "PVBR" 16 18 ++ [0; 0; 0; 0; 7; 7]) ++ (c114_head "PXXX" 13 18 ++ [9; 1; 1; 1; 1; 1]).
Example c114_example : bytes_ok c114_buf /\ len c114_buf = 70 /\ file_in Debug c114_buf 0 70 /\ match rd_anlz Debug c114_buf 0 with Ok (a, p) => p = 70 /\ len (an_sections a) = 3 | _ => False end.
Proof.
  split; [repeat constructor|]. split; [reflexivity|]. split; [|vm_compute; now split].
  exists 14, 70, 2, 56. split; [now eexists [], _|]. split; [reflexivity|]. split; [reflexivity|]. split; [reflexivity|]. split; [reflexivity|]. split; [vm_compute; discriminate|].
  apply (in_more _ _ _ _ 34 _ 16 20); [reflexivity|reflexivity|reflexivity| |].
  - apply (in_path _ _ _ _ _ _ 1); [now eexists (takeN 14 c114_buf), _|reflexivity|reflexivity|reflexivity| |reflexivity]. intros i Hi. assert (i = 0) as -> by (destruct i as [|[]]; [reflexivity|discriminate|discriminate|discriminate]). now exists 65.
  - apply (in_more _ _ _ _ 52 _ 16 18); [reflexivity|reflexivity|reflexivity| |].
    + apply (in_vbr _ _ _ _ _ _ 2); [now eexists (takeN 34 c114_buf), _|reflexivity|reflexivity|vm_compute; discriminate].
    + apply (in_more _ _ _ _ 70 _ 13 18); [reflexivity|reflexivity|reflexivity| |constructor; vm_compute; discriminate].
      apply (in_unknown _ _ _ _ _ _ 1 5); [|reflexivity|reflexivity|reflexivity|vm_compute; discriminate].
      assert (has c114_buf 52 (letters "PXXX")) as H0 by (now eexists (takeN 52 c114_buf), _). intros x k HI HX. assert (letters x = letters "PXXX") as E.
      { assert (len (letters x) = 4) as L by (unfold kind_letters in HI; repeat (destruct HI as [HI|HI]; [injection HI as <- _; reflexivity|]); destruct HI). apply (has_inj c114_buf 52); [exact HX|exact H0|exact L]. }
      unfold kind_letters in HI. repeat (destruct HI as [HI|HI]; [injection HI as <- _; vm_compute in E; discriminate|]). destruct HI.
Qed.
