(** * Properties C43 and C44: XOR streams *)
From Coq Require Import NArith ZArith List Bool.
From Verif Require Import Base BaseFacts Schema Xor XorFacts Anlz AnlzSong XorRun.
Import ListNotations.
Open Scope N_scope.

(** C43: any sequence of complete reads, writes and seeks, each depending on what was read before.  Each byte that the
    stream would read or write next is combined with the key byte number [position - start], counted cyclically. *)
Theorem c43_key_aligned : forall A key buf start (p : prog A) a x bs,
  key <> [] -> run_xor p (xs_with_key buf start key) = Ok (a, x) ->
  fst (xor_bytes (xs_key x) bs) = xor_cycle key (Z.of_N (xs_pos x) - Z.of_N start) bs.
Proof.
  intros A key buf start p a x bs HK HR. apply aligned_next. eapply run_aligned; [|exact HR]. now apply with_key_aligned.
Qed.
Print Assumptions c43_key_aligned.
(** So a program does through the stream what it does on the decoded contents without one: the same result or error,
    the same position, and the same contents afterwards, once decoded. *)
Theorem c43_transparent : forall A key buf start (p : prog A),
  key <> [] -> gapless p (xor_view key start buf, start) ->
  match run_plain p (xor_view key start buf, start) with
  | Ok (a, (buf', pos')) => exists x, run_xor p (xs_with_key buf start key) = Ok (a, x) /\ xor_view key start (xs_buf x) = buf' /\ xs_pos x = pos'
  | Err e => run_xor p (xs_with_key buf start key) = Err e
  | Panic => False
  end.
Proof.
  intros A key buf start p HK HG. pose proof (run_view key start p (xs_with_key buf start key) (with_key_aligned buf start key HK)) as H.
  unfold view in H at 1 2. assert (xs_buf (xs_with_key buf start key) = buf /\ xs_pos (xs_with_key buf start key) = start) as [EB EP] by now destruct key.
  rewrite EB, EP in H. specialize (H HG). destruct (run_plain p (xor_view key start buf, start)) as [[a [buf' pos']]| |]; [|easy|easy].
  destruct H as (x & H1 & H2 & _). exists x. split; [easy|]. unfold view in H2. now injection H2.
Qed.
Print Assumptions c43_transparent.
(** The contents that were there before [start] or are written behind it decode with the same key; decoding twice gives
    the contents back. *)
Theorem c43_involutive : forall key start buf, xor_view key start (xor_view key start buf) = buf.
Proof. intros. apply xor_cycle_invol. Qed.
Print Assumptions c43_involutive.
Theorem c43_empty_key : forall buf start, xs_with_key buf start [] = xs_with_key buf start [0] /\ xor_view [0] start buf = buf.
Proof. intros. split; [reflexivity|apply key0_id]. Qed.
Print Assumptions c43_empty_key.
(** In particular song structures: reading through the stream is reading the decoded bytes, and writing in any pieces
    writes the encoded concatenation. *)
Theorem c43_song_read : forall n key buf pos, key <> [] ->
  match rd_song_data n (xor_view key pos buf) pos with
  | Ok (d, q) => exists x, run_xor (prog_song_data n) (xs_with_key buf pos key) = Ok (d, x) /\ xs_pos x = q /\ xs_buf x = buf
  | Err e => run_xor (prog_song_data n) (xs_with_key buf pos key) = Err e
  | Panic => False
  end.
Proof. exact song_through_stream. Qed.
Print Assumptions c43_song_read.
Theorem c43_song_program : forall n, realizes (rd_song_data n) (prog_song_data n).
Proof. exact realizes_song_data. Qed.
Print Assumptions c43_song_program.
Theorem c43_write_pieces : forall key buf pos, key <> [] -> pos <= len buf -> forall pieces,
  exists x, run_xor (write_pieces pieces) (xs_with_key buf pos key) = Ok (tt, x) /\ xs_pos x = pos + len (concat pieces) /\
    xs_buf x = write_at buf pos (xor_cycle key 0 (concat pieces)).
Proof. exact pieces_through_stream. Qed.
Print Assumptions c43_write_pieces.
(** Read two bytes, go back before the start, read one, seek relative to the end, overwrite, seek forward. *)
Definition c43_prog : prog (list N * list N * N) :=
  PRead 2 (fun a => PSeek (SStart 1) (fun _ => PRead 1 (fun c => PSeek (SEnd (-3)) (fun p => PWrite [7; 8] (PSeek (SCur (-4)) (fun _ => PRead 4 (fun d => PRet (a ++ c, d, p)))))))).
Example c43_example :
  let buf := [10; 20; 30; 40; 50; 60; 70; 80] in let key := [1; 2; 3] in
  gapless c43_prog (xor_view key 2 buf, 2) /\
  match run_xor c43_prog (xs_with_key buf 2 key) with
  | Ok (r, x) => r = ([31; 42; 23], [42; 49; 7; 8], 5) /\ xs_buf x = [10; 20; 30; 40; 50; 6; 10; 80] /\ xs_pos x = 7
  | _ => False
  end.
Proof. vm_compute. repeat split; discriminate. Qed.

(** C44: [read_exact] when the inner reader delivers the bytes in the pieces [chunks]. *)
Theorem c44_short_reads : forall key i x old chunks,
  key <> [] -> cyc_at key i (xs_key x) -> Forall (fun c => c <> []) chunks -> len old = len (concat chunks) ->
  has (xs_buf x) (xs_pos x) (concat chunks) ->
  exists out x', xs_read_exact x old (map len chunks) = Ok (out, x') /\ xs_pos x' = xs_pos x + len (concat chunks) /\
    (out = xor_cycle key i (concat chunks) <-> in_step key i 0 chunks) /\
    (cyc_at key (i + Z.of_N (len (concat chunks))) (xs_key x') <-> (Z.of_N (drift chunks) mod ksz key = 0)%Z).
Proof.
  intros key i x old chunks HK HC HN HL HH. destruct (read_exact_chunks key chunks i x old HK HC HN HL HH) as (x' & E & _ & P & _ & C).
  exists (split_out key i chunks), x'. split; [exact E|]. split; [exact P|]. split.
  - rewrite <- split_out_iff, Z.add_0_r. reflexivity.
  - pose proof (ksz_pos key HK) as KP. split.
    + intro C2. pose proof (cyc_at_inj _ _ _ _ HK C C2) as EM.
      set (t := (i + Z.of_N (len (concat chunks)))%Z) in *. clear - EM KP. 
      apply (f_equal (fun z => (z - t mod ksz key) mod ksz key)%Z) in EM. rewrite Z.sub_diag, Z.mod_0_l in EM by (intro; subst; now rewrite H in KP).
      rewrite <- Zminus_mod in EM. now replace (t + Z.of_N (drift chunks) - t)%Z with (Z.of_N (drift chunks)) in EM by ring.
    + intro ED. eapply cyc_at_congr; [|exact C]. rewrite <- Z.add_mod_idemp_r, ED, Z.add_0_r by (intro H; now rewrite H in KP). reflexivity.
Qed.
Print Assumptions c44_short_reads.
(** A single piece is never wrong. *)
Theorem c44_full_read : forall key i c, in_step key i 0 [c].
Proof. intros key i c. cbn. split; [|easy]. intros j _. now rewrite Z.add_0_r. Qed.
Print Assumptions c44_full_read.
(** With the key of any song structure, decoding out of step changes something in any 19 bytes. *)
Theorem c44_song_key : forall n i w bs, (w mod 19 <> 0)%Z -> 19 <= len bs ->
  xor_cycle (song_key n) (i + w) bs <> xor_cycle (song_key n) i bs.
Proof. exact song_key_shift. Qed.
Print Assumptions c44_song_key.
(** A two byte field that is delivered in two pieces of one byte. *)
Example c44_example :
  xs_read_exact (xs_with_key [11; 22; 33] 0 [1; 2; 3]) [0; 0] [2] = Ok ([10; 20], {| xs_buf := [11; 22; 33]; xs_pos := 2; xs_key := {| cy_orig := [1; 2; 3]; cy_rest := [3] |}; xs_size := 3 |}) /\
  xs_read_exact (xs_with_key [11; 22; 33] 0 [1; 2; 3]) [0; 0] [1; 1] = Ok ([10; 21], {| xs_buf := [11; 22; 33]; xs_pos := 2; xs_key := {| cy_orig := [1; 2; 3]; cy_rest := [] |}; xs_size := 3 |}) /\
  drift [[11]; [22]] = 1.
Proof. repeat split. Qed.
