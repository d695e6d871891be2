(** * Property C64: what can be written *)
From Coq Require Import NArith List Bool Lia.
From Coq Require Import ZifyBool ZifyNat ZifyN.
From Verif Require Import Base BaseFacts Segs Utf Str StrFacts StrGood Schema SchemaFacts Oa OaFacts OaSpec Rows RowFacts
  Page PageFacts PageRw PageSpec AllocFacts IndexSpec Db DbFacts DbFlush Writable PropRows PropPage PropDb.
Import ListNotations.
Open Scope N_scope.

(** C64.  A string can be written unless it is in a long form and too long for the 16-bit length field; there is no error, only a panic. *)
Theorem c64_string : forall b d buf pos,
  match dstr_write b d (buf, pos) with
  | Ok _ => str_writable b d
  | Panic => ~ str_writable b d
  | Err _ => False
  end.
Proof. intros b d buf pos. unfold dstr_write. pose proof (dstr_enc_cases b d) as C. now destruct (dstr_enc b d). Qed.
Print Assumptions c64_string.
(** A row can be written iff its strings can and, where the offsets are computed, they fit the size that the subtype selects. *)
Theorem c64_row : forall b Q r buf pos, row_ok Q r ->
  match row_write b r (buf, pos) with
  | Ok _ => Forall (str_writable b) (row_strings r) /\ offsets_fit b r
  | Panic => ~ Forall (str_writable b) (row_strings r)
  | Err e => e = EAssertFail /\ Forall (str_writable b) (row_strings r) /\ ~ offsets_fit b r
  end.
Proof. exact row_write_cases. Qed.
Print Assumptions c64_row.
(** Rows without an offset array, and rows whose offsets are given, have only the limit on strings. *)
Theorem c64_row_provided : forall b Q r buf pos, row_ok Q r -> match r with RRow _ _ (Some c) => oa_offs c <> None | _ => True end ->
  ((exists s, row_write b r (buf, pos) = Ok s) <-> Forall (str_writable b) (row_strings r)) /\ forall e, row_write b r (buf, pos) <> Err e.
Proof.
  intros b Q r buf pos H1 H2. pose proof (row_write_cases b Q r buf pos H1) as C.
  assert (offsets_fit b r) as F by (destruct r as [k vs [c|]|]; cbn [offsets_fit] in *; [destruct (oa_offs c); [exact I|easy]|exact I|exact I]).
  destruct (row_write b r (buf, pos)) as [s| |]; (split; [|easy || (intros e' [= <-]; now destruct C as (_ & _ & C))]).
  - split; [intros _; apply C|eauto].
  - now destruct C as (_ & _ & C).
  - split; [now intros [? ?]|easy].
Qed.
Print Assumptions c64_row_provided.
(** A page whose rows and groups may be anything that exists in memory. *)
Theorem c64_data_page : forall db b ps h c buf pos Q,
  40 <= ps -> phdr_ok db h -> fields_ok no_q dhdr_fields (dc_header c) -> Forall rgroup_ok (dc_groups c) -> 36 * len (dc_groups c) <= pos + ps ->
  Forall (fun x => row_ok Q (snd x)) (dc_rows c) ->
  (exists s, page_write b ps (mk_page h (PData c)) (buf, pos) = Ok s) <-> Forall (fun x => row_writable b (snd x)) (dc_rows c).
Proof. exact data_page_ok. Qed.
Print Assumptions c64_data_page.
Theorem c64_index_page : forall db b ps h c buf pos, 80 <= ps -> phdr_ok db h -> ihdr_ok (ic_header c) ->
  (exists s, page_write b ps (mk_page h (PIndex c)) (buf, pos) = Ok s) <-> ih_num (ic_header c) <= (ps - 80) / 4.
Proof. exact index_page_ok. Qed.
Print Assumptions c64_index_page.
Theorem c64_flush : forall b d, all_inside b d -> (forall k p, getN (db_pages d) k = Some (Some p) -> rows_ok p) ->
  (exists d', flush b d = DOk d') <-> forall k p, getN (db_pages d) k = Some (Some p) -> page_writable b (dh_page_size (db_header d)) p.
Proof. exact flush_ok. Qed.
Print Assumptions c64_flush.

(** A tag with 8-bit offsets: the second string must start below 256. *)
Example c64_example : let tag n := RRow KTag [VInt 0x680; VInt 0; VInt 0; VInt 0; VInt 0; VInt 0; VInt 1; VInt 0] (Some (mk_oarr None [DSAscii (repeat 97 (N.to_nat n)); DSShort []])) in
  (exists s, row_write Debug (tag 200) ([], 0) = Ok s) /\ row_write Debug (tag 300) ([], 0) = Err EAssertFail.
Proof. split; [eexists; vm_compute; reflexivity|vm_compute; reflexivity]. Qed.
Example c64_example_row_hyp : row_ok dstr_good c11_artist /\ row_writable Debug c11_artist /\ row_writable Release c11_artist.
Proof.
  split; [apply c11_example_hyp|]. assert (forall b, exists x, row_segs b c11_artist 0 = Ok x) as H by (intros []; eexists; reflexivity).
  split; eapply (row_segs_ok _ dstr_good); try apply H; apply c11_example_hyp.
Qed.
Example c64_example_string : str_writable Debug (DSAscii (repeat 97 (N.to_nat 65531))) /\ ~ str_writable Debug (DSAscii (repeat 97 (N.to_nat 65532))) /\
  str_writable Release (DSAscii (repeat 97 (N.to_nat 65532))).
Proof. unfold str_writable, content_bytes. split; [|split]; vm_compute; congruence. Qed.
Example c64_example_flush : all_inside Debug ex_db /\ (forall k p, getN (db_pages ex_db) k = Some (Some p) -> rows_ok p /\ page_writable Debug 100 p).
Proof.
  split; [apply c30_example_hyp|]. intros k p H. assert (In (Some p) (db_pages ex_db)) as HI by (apply in_getN; now exists k).
  destruct HI as [[= <-]|[|[[= <-]|[]]]]; [|discriminate|].
  - split; [exact I|]. vm_compute. discriminate.
  - split.
    + constructor; [|constructor; [|constructor]]; (split; [|exact I]); repeat constructor; cbn; repeat split; repeat constructor; try easy.
    + constructor; [|constructor; [|constructor]]; (split; [|exact I]); repeat constructor.
Qed.
