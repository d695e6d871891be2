(** * Properties C65 to C68: where databases store things *)
From Coq Require Import NArith List Bool String.
From Verif Require Import Base BaseFacts Utf Str StrFacts StrGood Schema Oa OaFacts Rows RowFacts RowSpec Page PageFacts PageRw PageSpec IndexSpec Db DbFacts DbFlush Layout LayoutStr LayoutDb.
Import ListNotations.
Open Scope N_scope.

(** C65: the bytes of strings are exactly those of [text_bytes] and [isrc_bytes] (LayoutStr.v). *)
Theorem c65_text : forall b s d buf pos buf' p, dstr_new s = inl d -> dstr_write b d (buf, pos) = Ok (buf', p) ->
  has buf' pos (text_bytes s) /\ p = pos + len (text_bytes s).
Proof. exact new_writes. Qed.
Print Assumptions c65_text.
Theorem c65_isrc : forall b s d buf pos buf' p, dstr_new_isrc s = inl d -> dstr_write b d (buf, pos) = Ok (buf', p) ->
  has buf' pos (isrc_bytes s) /\ p = pos + len (isrc_bytes s).
Proof. exact isrc_writes. Qed.
Print Assumptions c65_isrc.
(** Whoever stored these bytes: the text is read. *)
Theorem c65_read : forall b s d buf pos, ustr_ok s -> dstr_new s = inl d -> ~ starts_like_isrc s -> (exists bs, dstr_enc b d = Ok bs) -> has buf pos (text_bytes s) ->
  rd_dstr b buf pos = Ok (d, pos + len (text_bytes s)) /\ dstr_into_string d = inl s.
Proof. exact text_reads. Qed.
Print Assumptions c65_read.
Example c65_example :
  text_bytes [102; 111; 111] = [9; 102; 111; 111] /\ text_bytes [233; 0x1F600] = [0x90; 10; 0; 0; 233; 0; 0x3D; 0xD8; 0; 0xDE] /\
  (exists d, dstr_new [233; 0x1F600] = inl d /\ dstr_write Debug d ([], 0) = Ok (text_bytes [233; 0x1F600], 10)) /\
  isrc_bytes [71; 66; 65; 89; 69; 48; 49; 48; 48; 49; 50; 51] = [0x90; 18; 0; 0; 3; 71; 66; 65; 89; 69; 48; 49; 48; 48; 49; 50; 51; 0].
Proof. split; [reflexivity|]. split; [reflexivity|]. split; [|reflexivity]. eexists. split; reflexivity. Qed.

(** C66: rows.  [rs] is any reader of strings. *)
Theorem c66_read : forall rs k buf pos r p, rd_row rs (PT k) buf pos = Ok (r, p) ->
  exists vs oc, r = RRow k vs oc /\
  Forall2 (at_place buf pos) (row_layout k) (numbers vs) /\
  Forall (fun '(q, w, m) => number buf (pos + q) w = Some m) (row_constants k) /\
  (forall q, row_text k = Some q -> exists d l p', texts vs = d :: l /\ rs buf (pos + q) = Ok (d, p')) /\
  match row_pointers k, oc with
  | None, None => True
  | Some (a, names), Some c => pointed rs buf pos a (List.length names) (oa_items c)
  | _, _ => False
  end.
Proof. exact row_read_layout. Qed.
Print Assumptions c66_read.
Theorem c66_history : forall rs buf pos r p, rd_row rs (PT KHistory) buf pos = Ok (r, p) ->
  exists subtype shift n date p1 version p2 label, r = RRow KHistory [VInt subtype; VInt shift; VInt n; VUnit; VStr date; VUnit; VStr version; VStr label] None /\
    rs buf (pos + 12) = Ok (date, p1) /\ number buf p1 2 = Some 0x1E19 /\ rs buf (p1 + 2) = Ok (version, p2) /\ rs buf p2 = Ok (label, p).
Proof. exact history_layout. Qed.
Print Assumptions c66_history.
(** What is written is stored in the same places. *)
Theorem c66_written : forall b k vs oc buf pos buf' p,
  row_ok dstr_good (RRow k vs oc) -> row_calc (RRow k vs oc) -> row_write b (RRow k vs oc) (buf, pos) = Ok (buf', p) ->
  Forall2 (at_place buf' pos) (row_layout k) (numbers vs) /\
  Forall (fun '(q, w, m) => number buf' (pos + q) w = Some m) (row_constants k) /\
  (forall q, row_text k = Some q -> exists d l p', texts vs = d :: l /\ rd_dstr b buf' (pos + q) = Ok (d, p')) /\
  match row_pointers k, oc with
  | None, None => True
  | Some (a, names), Some c => pointed (rd_dstr b) buf' pos a (List.length names) (oa_items c)
  | _, _ => False
  end.
Proof.
  intros b k vs oc buf pos buf' p HR HC HW. destruct (row_calc_write_read b _ (PT k) buf pos buf' p HR HC eq_refl HW) as (r' & p' & R & E).
  apply row_read_layout in R as (vs' & oc' & -> & H1 & H2 & H3 & H4). cbn [made_explicit] in E. destruct oc as [c|].
  - destruct E as (o & E & _). injection E as -> ->. cbn [oa_items] in H4. repeat (split; [assumption|]). exact H4.
  - injection E as -> ->. repeat (split; [assumption|]). exact H4.
Qed.
Print Assumptions c66_written.
(** An artist row of 16 bytes, behind one other byte. *)
Example c66_example : exists r p, rd_row (rd_dstr Debug) (PT KArtist) [9; 0x60; 0; 0x20; 0; 7; 0; 0; 0; 3; 10; 7; 65; 66] 1 = Ok (r, p) /\
  r = RRow KArtist [VInt 0x60; VInt 0x20; VInt 7] (Some (mk_oarr (Some (mk_offs OS8 [10])) [DSShort [65; 66]])).
Proof. eexists. eexists. split; [vm_compute; reflexivity|reflexivity]. Qed.
Example c66_example_written : exists buf' p, row_write Debug (RRow KArtist [VInt 0x64; VInt 0x20; VInt 7] (Some (mk_oarr None [DSShort [65; 66]]))) ([9], 1) = Ok (buf', p) /\
  buf' = [9; 0x64; 0; 0x20; 0; 7; 0; 0; 0; 3; 0; 12; 0; 7; 65; 66].
Proof. eexists. eexists. split; [vm_compute; reflexivity|reflexivity]. Qed.

(** C67: pages of [ps] bytes. *)
Theorem c67_read : forall b rs ps db buf pos pg p, bytes_ok buf -> 40 <= ps -> rd_page b rs ps db buf pos = Ok (pg, p) ->
  header_layout db buf pos (pg_header pg) /\
  match pg_content pg with
  | PIndex c => (ph_flags (pg_header pg) / 64) mod 2 = 1 /\ index_layout buf pos c
  | PData c => (ph_flags (pg_header pg) / 64) mod 2 = 0 /\ data_layout rs buf pos ps (pg_header pg) c /\ p = pos + ps
  end.
Proof. exact page_layout. Qed.
Print Assumptions c67_read.
Theorem c67_data_written : forall b db ps h c buf pos buf' p', dpage_ok dstr_good db ps h c -> page_tidy b ps c -> bytes_ok buf' ->
  page_write b ps (mk_page h (PData c)) (buf, pos) = Ok (buf', p') ->
  header_layout db buf' pos h /\ exists gs rows, rows_explicit b (dc_rows c) rows /\ Forall2 rg_same (dc_groups c) gs /\
    data_layout (rd_dstr b) buf' pos ps h (mk_dcontent (dc_header c) gs rows).
Proof.
  intros b db ps h c buf pos buf' p' HO HT HB HW. destruct (tidy_page_write_read b db ps h c buf pos buf' p' HO HT HW) as (_ & pg & R & gs & rows & -> & E1 & E2 & _).
  destruct HO as (P1 & _). apply page_layout in R as (H1 & _ & H2 & _); [|assumption|assumption]. split; [exact H1|]. now exists gs, rows.
Qed.
Print Assumptions c67_data_written.
Theorem c67_index_written : forall b db ps h c buf pos buf' p',
  80 <= ps -> phdr_ok db h -> is_index_page (ph_flags h) = true -> ihdr_ok (ic_header c) -> Forall is_u32 (ic_entries c) ->
  len (ic_entries c) = ih_num (ic_header c) -> bytes_ok buf' -> page_write b ps (mk_page h (PIndex c)) (buf, pos) = Ok (buf', p') ->
  header_layout db buf' pos h /\ index_layout buf' pos c.
Proof.
  intros b db ps h c buf pos buf' p' HP HO HX HI HE HL HB HW. pose proof (index_page_write_read b db ps h c buf pos buf' p' HP HO HX HI HE HL HW) as R.
  apply page_layout in R as (H1 & _ & H2); [now split|assumption|]. eapply N.le_trans; [|exact HP]. discriminate.
Qed.
Print Assumptions c67_index_written.
(** A page of 98 bytes with two of three rows present (the page of C22). *)
Definition c67_buf : list N :=
  [0; 0; 0; 0;  5; 0; 0; 0;  5; 0; 0; 0;  6; 0; 0; 0;  1; 0; 0; 0;  0; 0; 0; 0;  3; 64; 0;  0x24;  12; 0;  36; 0;  1; 0; 0; 0; 0; 0; 0; 0;
   1; 0; 0; 0; 1; 0; 0; 0; 7; 65; 109; 255;  255; 255; 255; 255; 255; 255; 255; 255; 255; 255; 255; 255;  2; 0; 0; 0; 2; 0; 0; 0; 5; 66; 255; 255; 255; 255; 255; 255;
   255; 255; 255; 255; 255; 255; 255; 255;  24; 0;  12; 0;  0; 0;  5; 0;  4; 0].
Example c67_example : bytes_ok c67_buf /\ exists c, rd_page Debug (rd_dstr Debug) 98 DbPlain c67_buf 0 = Ok (mk_page (mk_phdr 5 (PT KKey) 6 1 0 (mk_counts 3 2) 0x24 12 36) (PData c), 98) /\
  dc_rows c = [(0, RRow KKey [VInt 1; VInt 1; VStr (DSShort [65; 109])] None); (24, RRow KKey [VInt 2; VInt 2; VStr (DSShort [66])] None)] /\
  slot_present c67_buf 98 2 /\ slot_offset c67_buf 98 2 = Some 24 /\ ~ slot_present c67_buf 98 1.
Proof.
  split; [repeat constructor|]. eexists. split; [vm_compute; reflexivity|]. split; [reflexivity|]. split; [exists 5; split; reflexivity|]. split; [reflexivity|].
  intros (fl & H1 & H2). vm_compute in H1. injection H1 as <-. vm_compute in H2. discriminate.
Qed.

(** C68: the header of a database; pages follow each other. *)
Theorem c68_open : forall io k d, db_open io k = DOk d -> tables_layout k io (db_header d).
Proof. exact open_layout. Qed.
Print Assumptions c68_open.
Theorem c68_page : forall b io k d i pg, bytes_ok io -> db_open io k = DOk d -> 40 <= dh_page_size (db_header d) -> 1 <= i -> snd (load_page b d i) = DOk pg ->
  let ps := dh_page_size (db_header d) in
  header_layout k io (i * ps) (pg_header pg) /\
  match pg_content pg with
  | PIndex c => (ph_flags (pg_header pg) / 64) mod 2 = 1 /\ index_layout io (i * ps) c
  | PData c => (ph_flags (pg_header pg) / 64) mod 2 = 0 /\ data_layout (rd_dstr b) io (i * ps) ps (pg_header pg) c
  end.
Proof.
  intros b io k d i pg HB HO HP Hi HL ps. destruct (opened_page_layout b io k d i pg HB HO HP Hi HL) as [p R].
  apply page_layout in R as [H1 H2]; [|assumption|assumption]. split; [exact H1|]. destruct (pg_content pg); [|exact H2]. destruct H2 as (A & B & _). now split.
Qed.
Print Assumptions c68_page.
Theorem c68_written : forall b d d', dbhdr_ok (db_kind d) (db_header d) -> 28 + 16 * len (dh_tables (db_header d)) <= dh_page_size (db_header d) ->
  all_inside b d -> flush b d = DOk d' -> tables_layout (db_kind d) (db_io d') (db_header d).
Proof. exact flushed_layout. Qed.
Print Assumptions c68_written.
Definition c68_io : list N :=
  Eval vm_compute in [0; 0; 0; 0;  98; 0; 0; 0;  1; 0; 0; 0;  2; 0; 0; 0;  5; 0; 0; 0;  9; 0; 0; 0;  0; 0; 0; 0;  5; 0; 0; 0;  2; 0; 0; 0;  1; 0; 0; 0;  1; 0; 0; 0] ++ repeat 0 54 ++ c67_buf.
Example c68_example : bytes_ok c68_io /\ exists d, db_open c68_io DbPlain = DOk d /\ db_header d = mk_dbhdr 98 1 2 5 9 [mk_table (PT KKey) 2 1 1] /\
  exists pg, snd (load_page Debug d 1) = DOk pg /\ ph_index (pg_header pg) = 5.
Proof. split; [repeat constructor|]. eexists. split; [vm_compute; reflexivity|]. split; [reflexivity|]. eexists. split; [vm_compute; reflexivity|reflexivity]. Qed.
