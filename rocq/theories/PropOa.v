(** * Properties C08 to C10: offset arrays *)
From Coq Require Import NArith List Bool.
From Verif Require Import Base BaseFacts Segs Utf Str StrFacts StrGood Oa OaFacts OaSpec.
Import ListNotations.
Open Scope N_scope.

(** C08: well-formed strings ([dstr_good]: all that [new] makes except those of C03 that can be taken for an ISRC string). *)
Theorem c08_write_read : forall b offset sz items buf pos buf' pos',
  Forall dstr_good items -> oarr_write b offset sz (mk_oarr None items) (buf, pos) = Ok (buf', pos') ->
  exists os hi, laid b (strings_from offset sz items) items os hi /\
    rd_oarr (rd_dstr b) offset sz (length items) buf' pos = Ok (mk_oarr (Some (mk_offs sz os)) items, pos - offset).
Proof. exact oarr_calc_write_read. Qed.
Print Assumptions c08_write_read.
Theorem c08_new_is_good : forall s d, ustr_ok s -> dstr_new s = inl d -> ~ starts_like_isrc s -> dstr_good d.
Proof. exact dstr_new_good. Qed.
Print Assumptions c08_new_is_good.
Theorem c08_alignment : forall b lo items os hi,
  laid b lo items os hi -> Forall2 (fun d o => o mod start_multiple d = 0) items os.
Proof. exact laid_starts. Qed.
Print Assumptions c08_alignment.
(** With given offsets: if what is written does not overlap, it reads back. *)
Theorem c08_provided : forall b offset sz o items buf pos buf' pos' l,
  Forall dstr_good items -> length (of_list o) = length items ->
  Forall (fun x => x < 256 ^ os_bytes sz) (of_list o) ->
  items_segs b (pos - offset) items (of_list o) = Ok l -> segs_disj ((pos, offs_enc o) :: l) ->
  oarr_write b offset sz (mk_oarr (Some o) items) (buf, pos) = Ok (buf', pos') ->
  rd_oarr (rd_dstr b) offset sz (length items) buf' pos = Ok (mk_oarr (Some o) items, pos - offset).
Proof. exact oarr_prov_write_read. Qed.
Print Assumptions c08_provided.
(** What was read is written back unchanged (the strict reader differs from [rd_dstr] only in that it refuses ISRC strings
    with a length field that disagrees with the content). *)
Theorem c08_read_write_back : forall b offset sz n buf pos c p,
  bytes_ok buf -> len buf < 2 ^ 64 - 1 -> rd_oarr (rd_dstr_strict b) offset sz n buf pos = Ok (c, p) ->
  rd_oarr (rd_dstr b) offset sz n buf pos = Ok (c, p) /\ oarr_write b offset sz c (buf, pos) = Ok (buf, p).
Proof. exact oarr_read_write_back. Qed.
Print Assumptions c08_read_write_back.
(** The example of the unit test in src/pdb/offset_array.rs:547. *)
Definition c08_items : list dstr := [DSShort [102; 111; 111]; DSUcs2 [233]].
Example c08_example_hyp : Forall dstr_good c08_items.
Proof.
  constructor; [|constructor; [|constructor]]; unfold dstr_good; cbn; repeat split; repeat constructor; try easy.
Qed.
Example c08_example :
  oarr_write Debug 0 OS8 (mk_oarr None c08_items) ([], 0)
    = Ok ([3; 3; 8; 9; 102; 111; 111; 0; 0x90; 6; 0; 0; 233; 0], 3) /\
  rd_oarr (rd_dstr Debug) 0 OS8 2 [3; 3; 8; 9; 102; 111; 111; 0; 0x90; 6; 0; 0; 233; 0] 0
    = Ok (mk_oarr (Some (mk_offs OS8 [3; 8])) c08_items, 0).
Proof. split; reflexivity. Qed.

(** C09 *)
Theorem c09_exact : forall b offset sz items os hi,
  offset mod 4 = 0 -> Forall dstr_inv items -> laid b (strings_from offset sz items) items os hi -> hi - offset < 65536 ->
  oarr_heap b sz (mk_oarr None items) = Ok (hi - offset).
Proof. exact oarr_heap_laid. Qed.
Print Assumptions c09_exact.
(** [hi] is where the written bytes end: nothing outside is touched and the file grows to exactly there. *)
Theorem c09_extent : forall b offset sz items os hi buf pos,
  offset <= pos -> laid b (strings_from offset sz items) items os hi ->
  (Exists (fun o => 256 ^ os_bytes sz <= o) os -> oarr_write b offset sz (mk_oarr None items) (buf, pos) = Err EAssertFail) /\
  (Forall (fun o => o < 256 ^ os_bytes sz) os ->
   exists buf', oarr_write b offset sz (mk_oarr None items) (buf, pos) = Ok (buf', pos - offset + strings_from offset sz items) /\
     has buf' pos (offs_enc (mk_offs sz os)) /\ Forall2 (item_at b buf' (pos - offset)) items os /\
     len buf' = N.max (len buf) (pos - offset + hi) /\
     forall i, i < pos \/ pos - offset + hi <= i -> i < len buf -> getN buf' i = getN buf i).
Proof. exact oarr_calc_spec. Qed.
Print Assumptions c09_extent.
Example c09_example : laid Debug (strings_from 8 OS8 c08_items) c08_items [11; 16] 22 /\ 8 mod 4 = 0 /\
  oarr_heap Debug OS8 (mk_oarr None c08_items) = Ok 14.
Proof.
  split; [|split; reflexivity].
  change 22 with (strings_from 8 OS8 c08_items + len [9; 102; 111; 111; 0; 0x90; 6; 0; 0; 233; 0]).
  now apply calc_laid.
Qed.
(** With given offsets the prediction is the sum of the sizes, whatever the offsets are ... *)
Theorem c09_provided_sum : forall b sz o items n,
  Forall dstr_inv items -> items_size b items = Ok n -> (len items + 1) * os_bytes sz + n < 65536 ->
  oarr_heap b sz (mk_oarr (Some o) items) = Ok ((len items + 1) * os_bytes sz + n).
Proof. exact oarr_heap_prov. Qed.
Print Assumptions c09_provided_sum.
(** ... so it can be less than what is written. *)
Theorem c09_provided_refuted : exists o items h buf' pos',
  oarr_heap Debug OS8 (mk_oarr (Some o) items) = Ok h /\
  oarr_write Debug 0 OS8 (mk_oarr (Some o) items) ([], 0) = Ok (buf', pos') /\ h < len buf'.
Proof.
  exists (mk_offs OS8 [10]), [DSShort [102]], 4, [3; 10; 0; 0; 0; 0; 0; 0; 0; 0; 5; 102], 0. repeat split.
Qed.
Print Assumptions c09_provided_refuted.

(** C10 *)
Theorem c10_error : forall b offset sz items os hi buf pos,
  offset <= pos -> laid b (strings_from offset sz items) items os hi ->
  Exists (fun o => 256 ^ os_bytes sz <= o) os -> oarr_write b offset sz (mk_oarr None items) (buf, pos) = Err EAssertFail.
Proof. intros. now apply (oarr_calc_spec b offset sz items os hi buf pos). Qed.
Print Assumptions c10_error.
Theorem c10_stored_offsets : forall b offset sz items os hi buf pos,
  offset <= pos -> laid b (strings_from offset sz items) items os hi -> Forall (fun o => o < 256 ^ os_bytes sz) os ->
  exists buf' pos', oarr_write b offset sz (mk_oarr None items) (buf, pos) = Ok (buf', pos') /\
    has buf' pos (offs_enc (mk_offs sz os)) /\
    Forall2 (fun d o => exists x, dstr_enc b d = Ok x /\ has buf' (pos - offset + o) x) items os.
Proof.
  intros b offset sz items os hi buf pos H1 H2 H3.
  destruct (proj2 (oarr_calc_spec b offset sz items os hi buf pos H1 H2) H3) as (buf' & A & B & C & _).
  exists buf', (pos - offset + strings_from offset sz items). repeat split; assumption.
Qed.
Print Assumptions c10_stored_offsets.
(** 300 characters in front of another string: the second offset is 307 (310 with two-byte offsets). *)
Example c10_example :
  let items := [DSAscii (repeat 97 (N.to_nat 300)); DSShort [98]] in
  calc_body Debug 3 items = Ok ([3; 307], le_enc 1 0x40 ++ le_enc 2 304 ++ le_enc 1 0 ++ repeat 97 (N.to_nat 300) ++ [5; 98]) /\
  oarr_write Debug 0 OS8 (mk_oarr None items) ([], 0) = Err EAssertFail /\
  match oarr_write Debug 0 OS16 (mk_oarr None items) ([], 0) with Ok (buf, _) => hasb buf 0 [3; 0; 6; 0; 54; 1] = true | _ => False end.
Proof. vm_compute. repeat split. Qed.
