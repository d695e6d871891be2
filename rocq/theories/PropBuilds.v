(** * Property theorems C82: builds with and without overflow checks *)
From Coq Require Import NArith ZArith List Bool Lia.
From Verif Require Import Base Utf Str Schema Oa Rows Page Alloc Db Dump Xor Anlz AnlzPanic Setting Device Cli Listing Session Revise Relink Robust PropRobust PropRelink Builds.
Import ListNotations.
Open Scope N_scope.

Lemma or_turn {A} (P : Prop) (x y : A) : P \/ x = y -> P \/ y = x.
Proof. intros [H | H]; [left; exact H | right; symmetry; exact H]. Qed.

(** C82.  Reading: the build without checks gives the same value, the same end position or the same error, unless the other one panics. *)
Theorem c82_read : forall ps k buf pos,
  (rd_page Debug (rd_dstr Debug) ps k buf pos = Panic \/ rd_page Release (rd_dstr Release) ps k buf pos = rd_page Debug (rd_dstr Debug) ps k buf pos) /\
  (rd_anlz Debug buf pos = Panic \/ rd_anlz Release buf pos = rd_anlz Debug buf pos).
Proof.
  intros ps k buf pos. split.
  - apply or_turn, (agp_page _ _ ps k agp_dstr buf pos).
  - apply or_turn, (agp_anlz buf pos).
Qed.
Print Assumptions c82_read.
(** So a page without strings of an impossible length reads the same in all builds. *)
Theorem c82_same : forall ps k buf pos, bytes_ok buf -> 40 <= ps -> (forall at_, ~ bad_string buf at_) ->
  rd_page Release (rd_dstr Release) ps k buf pos = rd_page Debug (rd_dstr Debug) ps k buf pos.
Proof.
  intros ps k buf pos HB HP HS. destruct (c82_read ps k buf pos) as [[E | E] _]; [|exact E].
  destruct (c74_checked ps k buf pos HB HP E) as [at_ H]. now destruct (HS at_).
Qed.
Print Assumptions c82_same.
(** Writing: rows, pages, whole databases and analysis files; and the predicted sizes of rows. *)
Theorem c82_write : forall r ps p d a s,
  (row_heap Debug r = Panic \/ row_heap Release r = row_heap Debug r) /\
  (row_write Debug r s = Panic \/ row_write Release r s = row_write Debug r s) /\
  (page_write Debug ps p s = Panic \/ page_write Release ps p s = page_write Debug ps p s) /\
  (flush Debug d = DPanic \/ flush Release d = flush Debug d) /\
  (enc_anlz Debug a = Panic \/ enc_anlz Release a = enc_anlz Debug a).
Proof.
  intros r ps p d a s.
  split; [apply or_turn, (ag_row_heap r)|].
  split; [apply or_turn, (ag_row r s)|].
  split; [apply or_turn, (ag_page ps p s)|].
  split; [apply or_turn, (ag_flush d)|].
  apply or_turn, (ag_anlz a).
Qed.
Print Assumptions c82_write.
(** The interface of databases, with the pages that are kept afterwards; and insertions of rows. *)
Theorem c82_database : forall d i t k ops p,
  (snd (load_page Debug d i) = DPanic \/ load_page Release d i = load_page Debug d i) /\
  (snd (collect Debug d (iter_of d t)) = Some DPanic \/ collect Release d (iter_of d t) = collect Debug d (iter_of d t)) /\
  (snd (iter_rows Debug k d) = Some DPanic \/ iter_rows Release k d = iter_rows Debug k d) /\
  (run Debug ops p = Panic \/ run Release ops p = run Debug ops p).
Proof.
  intros d i t k ops p.
  split; [apply or_turn, (ag_load_page d i)|].
  split; [apply or_turn, (ag_collect d (iter_of d t))|].
  split; [apply or_turn, (ag_rows k d)|].
  apply or_turn, (ag_run ops p).
Qed.
Print Assumptions c82_database.
(** Programs of many runs that open a file, change it and save it leave the same bytes. *)
Theorem c82_programs : forall k io ls io', jobs Debug k io ls io' -> jobs Release k io ls io'.
Proof. exact ag_jobs. Qed.
Print Assumptions c82_programs.
(** The commands.  What a dump prints before a panic is the beginning of what the other build prints. *)
Theorem c82_commands : forall depth d out canon io k unknown,
  (export Debug depth d out canon = Some Crash \/ export Release depth d out canon = export Debug depth d out canon) /\
  (list_playlists Debug depth io = Some Crash \/ list_playlists Release depth io = list_playlists Debug depth io) /\
  ((exists es, dump_pdb Debug io k unknown = Some (es, DPanic) /\
     forall es' r, dump_pdb Release io k unknown = Some (es', r) -> exists more, es' = es ++ more) \/
   dump_pdb Release io k unknown = dump_pdb Debug io k unknown).
Proof.
  intros depth d out canon io k unknown.
  split; [apply or_turn, (ag_export depth d out canon)|].
  split; [apply or_turn, (ag_list depth io)|].
  apply or_turn, ag_dump.
Qed.
Print Assumptions c82_commands.
(** A program run of C80 in the other build. *)
Example c82_example_job : jobs Release DbPlain (c80_io 1) [c80_tasks 1 2] (c80_done 1 2).
Proof. apply c82_programs. apply (jobs_cons _ _ _ _ (c80_done 1 2)); [apply c80_job; now left | apply jobs_nil]. Qed.
(** A string that the checks do not stop, one that they stop, and the same for analysis files. *)
Example c82_example :
  rd_dstr Debug [0x40; 6; 0; 0; 65; 66] 0 = Ok (DSAscii [65; 66], 6) /\ rd_dstr Release [0x40; 6; 0; 0; 65; 66] 0 = Ok (DSAscii [65; 66], 6) /\
  rd_dstr Debug [0x40; 3; 0; 0] 0 = Panic /\ rd_dstr Release [0x40; 3; 0; 0] 0 = Err EAssertFail /\
  (exists a q, rd_anlz Debug (be_enc 4 0x504D4149 ++ be_enc 4 12 ++ be_enc 4 26 ++ be_enc 4 0x41414141 ++ be_enc 4 12 ++ be_enc 4 14 ++ [7; 8]) 0 = Ok (a, q) /\
     rd_anlz Release (be_enc 4 0x504D4149 ++ be_enc 4 12 ++ be_enc 4 26 ++ be_enc 4 0x41414141 ++ be_enc 4 12 ++ be_enc 4 14 ++ [7; 8]) 0 = Ok (a, q)) /\
  rd_anlz Debug (be_enc 4 0x504D4149 ++ be_enc 4 12 ++ be_enc 4 11) 0 = Panic /\
  (exists e, rd_anlz Release (be_enc 4 0x504D4149 ++ be_enc 4 12 ++ be_enc 4 11) 0 = Err e).
Proof.
  split; [vm_compute; reflexivity|]. split; [vm_compute; reflexivity|]. split; [vm_compute; reflexivity|]. split; [vm_compute; reflexivity|].
  split; [eexists _, _; split; vm_compute; reflexivity|]. split; [vm_compute; reflexivity|]. eexists. vm_compute. reflexivity.
Qed.
