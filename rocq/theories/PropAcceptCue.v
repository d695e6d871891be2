(** * Property C113: which extended cues are accepted, and where they end *)
From Coq Require Import NArith ZArith List Bool String Lia.
From Coq Require Import ZifyBool ZifyNat ZifyN.
From Verif Require Import Base BaseFacts Utf UtfFacts Schema SchemaFacts Xor Anlz AnlzFacts AnlzSections AnlzPanic Layout LayoutAnlz Accept AcceptAll AcceptCue.
Import ListNotations.
Open Scope N_scope.

(** An extended cue is read, up to [fin], if and only if its codes are known, its comment has no lone surrogates, and all bytes up to [fin] are there. *)
Theorem c113_entry : forall b buf pos fin, bytes_ok buf -> len buf < 2 ^ 31 -> ((exists e, rd_ecue b buf pos = Ok (e, fin)) <-> extended_entry buf pos fin).
Proof. exact extended_accepts. Qed.
Print Assumptions c113_entry.
(** A list of extended cues is read if and only if its type is 0 or 1, the number behind the number of entries is zero, and each entry can be read where the one before it ends.  The sizes
    in the header of the section do not matter. *)
Theorem c113_list : forall b buf pos fin n, bytes_ok buf -> len buf < 2 ^ 31 -> has buf pos (letters "PCO2") -> number_be buf (pos + 16) 2 = Some n ->
  ((exists c, rd_section b buf pos = Ok (c, fin)) <->
   (number_be buf (pos + 12) 4 = Some 0 \/ number_be buf (pos + 12) 4 = Some 1) /\ number_be buf (pos + 18) 2 = Some 0 /\ extended_entries (N.to_nat n) buf (pos + 20) fin).
Proof. exact extended_list_accepts. Qed.
Print Assumptions c113_list.
(** Which comments are taken depends on surrogates only. *)
Theorem c113_comment : forall us, (exists s, utf16_dec us = Some s) <-> paired us.
Proof. exact dec_paired. Qed.
Print Assumptions c113_comment.
(** An entry whose total size has room for its comment ends where that size says if and only if its comment is stored with exactly one zero unit behind the text, or is empty with no unit at all.
    Otherwise what follows is read from the wrong place. *)
Theorem c113_end : forall b buf pos e fin t c us n, bytes_ok buf -> len buf < 2 ^ 31 -> rd_ecue b buf pos = Ok (e, fin) ->
  number_be buf (pos + 8) 4 = Some t -> number_be buf (pos + 40) 4 = Some c -> units_in buf (pos + 44) (c / 2) us -> units_text us n -> 68 + text_size n <= t ->
  fin + text_size n = pos + t + c /\ (fin = pos + t <-> c = text_size n).
Proof.
  intros b buf pos e fin t c us n HB HL HR HT HC HU HX HS. destruct (proj1 (extended_accepts b buf pos fin HB HL)) as (t' & c' & us' & n' & T & C & _ & _ & U & _ & X & -> & _); [now exists e|].
  assert (t' = t) as -> by congruence. assert (c' = c) as -> by congruence. assert (us' = us) as -> by (now apply (units_unique buf (pos + 44) (c / 2))). assert (n' = n) as -> by (now apply (units_text_unique us)). lia.
Qed.
Print Assumptions c113_end.

(** ** Examples *)
Definition c113_ends {A} (r : res (A * N)) : option N := match r with Ok (_, p) => Some p | _ => None end.
Definition c113_cue (t c : N) (us : list N) : list N :=
  letters "PCP2" ++ [0; 0; 0; 16; 0; 0; 0; t] ++ [0; 0; 0; 0; 1] ++ repeat 0 11 ++ [8] ++ repeat 0 11 ++ [0; 0; 0; c] ++ us ++ repeat 0 30.
Definition c113_cues (k u : N) (l : list N) : list N := letters "PCO2" ++ repeat 0 8 ++ [0; 0; 0; k; 0; 2; 0; u] ++ l ++ l.
(** The text "A": with one zero unit, with none, with two; a pair of surrogates; lone surrogates. *)
Example c113_example :
  bytes_ok (c113_cue 72 4 [0; 65; 0; 0]) /\
  map (fun l => c113_ends (rd_ecue Debug l 0)) [c113_cue 72 4 [0; 65; 0; 0]; c113_cue 72 2 [0; 65]; c113_cue 74 6 [0; 65; 0; 0; 0; 0]; c113_cue 74 6 [0xD8; 0; 0xDC; 0; 0; 0];
    c113_cue 72 4 [0xD8; 0; 0; 0]; c113_cue 72 4 [0xDC; 0; 0; 0]] = [Some 72; Some 70; Some 76; Some 74; None; None] /\
  paired [0xD800; 0xDC00; 0] /\ units_in (c113_cue 72 2 [0; 65]) 44 1 [65] /\ units_text [65] 1 /\ text_size 1 = 4 /\ ~ paired [0xD800; 0] /\
  has (c113_cues 1 0 (takeN 72 (c113_cue 72 4 [0; 65; 0; 0]))) 0 (letters "PCO2") /\ number_be (c113_cues 1 0 (takeN 72 (c113_cue 72 4 [0; 65; 0; 0]))) 16 2 = Some 2 /\
  map (fun q => c113_ends (rd_section Debug (c113_cues (fst q) (snd q) (takeN 72 (c113_cue 72 4 [0; 65; 0; 0]))) 0)) [(1, 0); (0, 0); (2, 0); (1, 1)] = [Some 164; Some 164; None; None].
Proof.
  split; [repeat constructor|]. split; [vm_compute; reflexivity|]. split; [apply dec_paired; now eexists|].
  assert (forall i (u : N), getN [65] i = Some u -> i = 0 /\ u = 65) as H1. { intros i u H. pose proof (getN_Some_lt _ _ _ H) as L. change (len [65]) with 1 in L. assert (i = 0) as -> by lia. cbn in H. split; [reflexivity|congruence]. }
  split; [split; [reflexivity|]; intros i u H; apply H1 in H as [-> ->]; vm_compute; reflexivity|].
  split; [split; [vm_compute; discriminate|]; split; [right; now exists 65|]; intros i x L H; apply H1 in H as [-> _]; lia|]. split; [reflexivity|].
  split; [intro H; apply dec_paired in H as [s H]; discriminate|]. split; [now eexists [], _|]. split; [vm_compute; reflexivity|]. vm_compute. reflexivity.
Qed.
