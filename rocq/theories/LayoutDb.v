(** * Where databases store rows, pages and tables

    The tables of C66 to C68, from the documentation comments of /repo and the analysis they cite, and the proofs that the readers follow them. *)
From Coq Require Import NArith ZArith List Bool String Lia.
From Coq Require Import ZifyBool ZifyNat ZifyN.
From Verif Require Import Base BaseFacts Str StrFacts Schema SchemaFacts Oa OaFacts Rows RowFacts Page PageFacts PageRw AllocSpec AllocFacts Db DbFacts DbFlush DbFresh Layout.
Import ListNotations.
Open Scope N_scope.

(** Name, offset from the start of the row, and width of the numbers. *)
Definition row_layout (k : rkind) : list (string * N * N) :=
  match k with
  | KAlbum => [("subtype", 0, 2); ("index_shift", 2, 2); ("unknown2", 4, 4); ("artist_id", 8, 4); ("id", 12, 4); ("unknown3", 16, 4)]
  | KArtist => [("subtype", 0, 2); ("index_shift", 2, 2); ("id", 4, 4)]
  | KArtwork => [("id", 0, 4)]
  | KColor => [("unknown1", 0, 4); ("unknown2", 4, 1); ("color", 5, 1); ("unknown3", 6, 2)]
  | KGenre => [("id", 0, 4)]
  | KHistoryPlaylist => [("id", 0, 4)]
  | KHistoryEntry => [("track_id", 0, 4); ("playlist_id", 4, 4); ("entry_index", 8, 4)]
  | KHistory => [("subtype", 0, 2); ("index_shift", 2, 2); ("num_tracks", 4, 4)]
  | KKey => [("id", 0, 4); ("id2", 4, 4)]
  | KLabel => [("id", 0, 4)]
  | KPlaylistTreeNode => [("parent_id", 0, 4); ("unknown", 4, 4); ("sort_order", 8, 4); ("id", 12, 4); ("node_is_folder", 16, 4)]
  | KPlaylistEntry => [("entry_index", 0, 4); ("track_id", 4, 4); ("playlist_id", 8, 4)]
  | KColumnEntry => [("id", 0, 2); ("unknown0", 2, 2)]
  | KMenu => [("category_id", 0, 2); ("content_pointer", 2, 2); ("unknown", 4, 1); ("visibility", 5, 1); ("sort_order", 6, 2)]
  | KTrack => [("subtype", 0, 2); ("index_shift", 2, 2); ("bitmask", 4, 4); ("sample_rate", 8, 4); ("composer_id", 0xc, 4); ("file_size", 0x10, 4);
               ("unknown2", 0x14, 4); ("unknown3", 0x18, 2); ("unknown4", 0x1a, 2); ("artwork_id", 0x1c, 4); ("key_id", 0x20, 4);
               ("orig_artist_id", 0x24, 4); ("label_id", 0x28, 4); ("remixer_id", 0x2c, 4); ("bitrate", 0x30, 4); ("track_number", 0x34, 4);
               ("tempo", 0x38, 4); ("genre_id", 0x3c, 4); ("album_id", 0x40, 4); ("artist_id", 0x44, 4); ("id", 0x48, 4); ("disc_number", 0x4c, 2);
               ("play_count", 0x4e, 2); ("year", 0x50, 2); ("sample_depth", 0x52, 2); ("duration", 0x54, 2); ("unknown5", 0x56, 2);
               ("color", 0x58, 1); ("rating", 0x59, 1); ("file_type", 0x5a, 2)]
  | KTag => [("subtype", 0, 2); ("index_shift", 2, 2); ("unknown1", 4, 4); ("unknown2", 8, 4); ("parent_id", 12, 4); ("position", 16, 4);
             ("id", 20, 4); ("raw_is_category", 24, 4)]
  | KTrackTag => [("track_id", 4, 4); ("tag_id", 8, 4); ("unknown_const", 12, 4)]
  end%string.
(** Constants: offset, width, value. *)
Definition row_constants (k : rkind) : list (N * nat * N) :=
  match k with KHistory => [(8, 4%nat, 0)] | KTrackTag => [(0, 4%nat, 0)] | _ => [] end.
(** Where the string directly in the row starts (of a history row: the date). *)
Definition row_text (k : rkind) : option N :=
  match k with
  | KArtwork | KGenre | KHistoryPlaylist | KLabel | KColumnEntry => Some 4
  | KColor | KKey => Some 8
  | KHistory => Some 12
  | KPlaylistTreeNode => Some 20
  | _ => None
  end.
(** Where the table of string offsets starts, and the strings it points at. *)
Definition row_pointers (k : rkind) : option (N * list string) :=
  match k with
  | KAlbum => Some (20, ["name"])
  | KArtist => Some (8, ["name"])
  | KTrack => Some (0x5c, ["isrc"; "lyricist"; "unknown_string2"; "unknown_string3"; "unknown_string4"; "message"; "publish_track_information";
                           "autoload_hotcues"; "unknown_string5"; "unknown_string6"; "date_added"; "release_date"; "mix_name"; "unknown_string7";
                           "analyze_path"; "analyze_date"; "comment"; "title"; "unknown_string8"; "filename"; "file_path"])
  | KTag => Some (0x1c, ["name"; "unknown"])
  | _ => None
  end%string.
Definition at_place (buf : list N) (pos : N) (q : string * N * N) (x : N) : Prop := number buf (pos + snd (fst q)) (N.to_nat (snd q)) = Some x.
(** The strings of a row that are stored by reference: the width of the references depends on bit 2 of the subtype, the table starts with a 3, and
    the references count from the start of the row. *)
Definition pointed (rs : parser dstr) (buf : list N) (pos at_ : N) (n : nat) (ds : list dstr) : Prop :=
  exists subtype, number buf pos 2 = Some subtype /\
  let w := if (subtype / 4) mod 2 =? 0 then 1%nat else 2%nat in
  number buf (pos + at_) w = Some 3 /\ List.length ds = n /\
  forall i, i < N.of_nat n -> exists o d q, number buf (pos + at_ + N.of_nat w * (i + 1)) w = Some o /\ getN ds i = Some d /\ rs buf (pos + o) = Ok (d, q).

Lemma row_places : forall k, places 0 (row_fields k) = map (fun q => (snd (fst q), N.to_nat (snd q))) (row_layout k) /\ consts 0 (row_fields k) = row_constants k /\
  text_place 0 (row_fields k) = row_text k /\ option_map (fun x => (fst x, List.length (snd x))) (row_pointers k) = row_oarr k /\
  numbers_first (row_fields k) = true /\ one_endian LE (row_fields k) = true.
Proof. intro k. destruct k; repeat split; reflexivity. Qed.
Lemma subtype_bit s : subtype_osize s = if (s / 4) mod 2 =? 0 then OS8 else OS16.
Proof.
  unfold subtype_osize. change (s / 4) with (s / 2 ^ 2). rewrite <- N.testbit_spec'. destruct (N.testbit s 2) eqn:E; cbn [N.b2n N.eqb].
  - destruct (N.land s 4 =? 0) eqn:E2; [|reflexivity]. apply N.eqb_eq in E2. apply (f_equal (fun x => N.testbit x 2)) in E2.
    rewrite N.land_spec, E in E2. discriminate.
  - replace (N.land s 4) with 0; [reflexivity|]. symmetry. apply N.bits_inj. intro i. rewrite N.land_spec, N.bits_0. change 4 with (2 ^ 2).
    rewrite N.pow2_bits_eqb. destruct (2 =? i) eqn:E2; [|apply andb_false_r]. apply N.eqb_eq in E2 as <-. now rewrite E.
Qed.
Lemma Forall2_map_l {A B C} (f : A -> B) (P : B -> C -> Prop) l1 l2 : Forall2 P (map f l1) l2 -> Forall2 (fun a c => P (f a) c) l1 l2.
Proof. revert l2; induction l1 as [|a l1 IH]; intros l2 H; inversion H; subst; constructor; auto. Qed.
Lemma row_read_layout rs k buf pos r p : rd_row rs (PT k) buf pos = Ok (r, p) ->
  exists vs oc, r = RRow k vs oc /\
  Forall2 (at_place buf pos) (row_layout k) (numbers vs) /\
  Forall (fun '(q, w, m) => number buf (pos + q) w = Some m) (row_constants k) /\
  (forall q, row_text k = Some q -> exists d l p', texts vs = d :: l /\ rs buf (pos + q) = Ok (d, p')) /\
  match row_pointers k, oc with
  | None, None => True
  | Some (a, names), Some c => pointed rs buf pos a (List.length names) (oa_items c)
  | _, _ => False
  end.
Proof.
  intro H. cbn [rd_row] in H. apply bind_inv in H as (vs & p1 & R & H). destruct (row_places k) as (P1 & P2 & P3 & P4 & P5 & P6).
  pose proof (row_fields_wf k) as HW. rewrite <- (N.add_0_r pos) in R.
  pose proof (fields_numbers rs LE _ 0 buf pos vs p1 P5 P6 HW R) as F1. pose proof (fields_consts rs LE _ 0 buf pos vs p1 P6 HW R) as F2.
  rewrite P1 in F1. rewrite P2 in F2. apply Forall2_map_l in F1. cbn [number_of] in *.
  assert (forall q, row_text k = Some q -> exists d l p', texts vs = d :: l /\ rs buf (pos + q) = Ok (d, p')) as F3.
  { intros q Hq. rewrite <- P3 in Hq. destruct (fields_text rs _ 0 buf pos vs p1 q HW R Hq) as (d & r1 & l & A & B). now exists d, l, r1. }
  destruct (row_oarr k) as [[off n]|] eqn:EO.
  - apply bind_inv in H as (c & p2 & RC & H). apply ret_inv in H as [<- <-]. exists vs, (Some c). split; [reflexivity|]. split; [exact F1|]. split; [exact F2|].
    split; [exact F3|]. destruct (row_pointers k) as [[a names]|] eqn:EP; [|discriminate]. injection P4 as -> P4. rewrite P4. apply oarr_texts in RC as (M & B & -> & L & G).
    assert (p1 = pos + off /\ exists s, number buf pos 2 = Some s /\ row_osize vs = subtype_osize s) as (-> & s & HS & EQ).
    { clear -EO R F1. rewrite N.add_0_r in R.
      destruct k; try discriminate; cbn [row_oarr] in EO; injection EO as <- <-; cbn [row_fields rd_fields u16f u32f rd_field u8f] in R;
        repeat match goal with R : (let* _ <- _; _) _ _ = Ok _ |- _ => apply bind_inv in R as (? & ? & ? & ?) end;
        repeat match goal with R : ret _ _ _ = Ok _ |- _ => apply ret_inv in R as [<- <-] end;
        repeat match goal with R : rd_int _ _ _ _ = Ok _ |- _ => apply rd_int_number in R as [? ->]; [|lia] end;
        repeat match goal with R : guard _ _ _ _ = Ok _ |- _ => apply guard_inv in R as [_ <-] end;
        (split; [lia|]); cbn [number_of] in *; cbn [row_osize]; eexists; split; try eassumption; reflexivity. }
    exists s. split; [exact HS|]. rewrite EQ, subtype_bit in *. unfold os_bytes in G. destruct (s / 4 mod 2 =? 0); cbn [os_nat] in *.
    + split; [exact M|]. split; [exact L|]. intros i Hi. destruct (G i Hi) as (o & d & q & A1 & A2 & A3). exists o, d, q.
      replace (pos + off - off) with pos in A3 by lia. now split.
    + split; [exact M|]. split; [exact L|]. intros i Hi. destruct (G i Hi) as (o & d & q & A1 & A2 & A3). exists o, d, q.
      replace (pos + off - off) with pos in A3 by lia. now split.
  - apply ret_inv in H as [<- <-]. exists vs, None. split; [reflexivity|]. split; [exact F1|]. split; [exact F2|]. split; [exact F3|].
    destruct (row_pointers k) as [[a names]|]; [discriminate|exact I].
Qed.
(** History rows: date, version and label follow each other, with 0x1E19 behind the date. *)
Lemma history_layout rs buf pos r p : rd_row rs (PT KHistory) buf pos = Ok (r, p) ->
  exists subtype shift n date p1 version p2 label, r = RRow KHistory [VInt subtype; VInt shift; VInt n; VUnit; VStr date; VUnit; VStr version; VStr label] None /\
    rs buf (pos + 12) = Ok (date, p1) /\ number buf p1 2 = Some 0x1E19 /\ rs buf (p1 + 2) = Ok (version, p2) /\ rs buf p2 = Ok (label, p).
Proof.
  intro R. cbn [rd_row row_fields rd_fields u16f u32f rd_field u8f row_oarr] in R.
  repeat match goal with R : (let* _ <- _; _) _ _ = Ok _ |- _ => apply bind_inv in R as (? & ? & ? & ?) end.
  repeat match goal with R : ret _ _ _ = Ok _ |- _ => apply ret_inv in R as [<- <-] end.
  repeat match goal with R : guard _ _ _ _ = Ok _ |- _ => apply guard_inv in R as [? <-] end.
  repeat match goal with R : rd_int _ _ _ _ = Ok _ |- _ => apply rd_int_number in R as [? ->]; [|lia] end.
  repeat match goal with R : (_ =? _) = true |- _ => apply N.eqb_eq in R; subst end. cbn [number_of] in *.
  do 8 eexists. split; [reflexivity|]. repeat split; try eassumption.
  match goal with R : rs _ ?x = Ok (_, _) |- rs _ ?y = Ok _ => replace y with x by lia; exact R end.
Qed.

(** ** Pages *)

(** Page types by number. *)
Definition page_types (db : dbtype) : list (N * rkind) :=
  match db with
  | DbPlain => [(0, KTrack); (1, KGenre); (2, KArtist); (3, KAlbum); (4, KLabel); (5, KKey); (6, KColor); (7, KPlaylistTreeNode); (8, KPlaylistEntry);
                (11, KHistoryPlaylist); (12, KHistoryEntry); (13, KArtwork); (16, KColumnEntry); (17, KMenu); (19, KHistory)]
  | DbExt => [(3, KTag); (4, KTrackTag)]
  end.
Definition type_number (db : dbtype) (t : ptype) (x : N) : Prop :=
  match t with PT k => In (x, k) (page_types db) | PTUnknown c => c = x /\ forall k, ~ In (x, k) (page_types db) end.
Definition header_layout (db : dbtype) (buf : list N) (pos : N) (h : phdr) : Prop :=
  number buf pos 4 = Some 0 /\ number buf (pos + 4) 4 = Some (ph_index h) /\
  (exists t, number buf (pos + 8) 4 = Some t /\ type_number db (ph_type h) t) /\
  number buf (pos + 12) 4 = Some (ph_next h) /\ number buf (pos + 16) 4 = Some (ph_unknown1 h) /\ number buf (pos + 20) 4 = Some (ph_unknown2 h) /\
  (exists c, number buf (pos + 24) 3 = Some c /\ c_rows (ph_counts h) = c mod 8192 /\ c_valid (ph_counts h) = c / 8192) /\
  number buf (pos + 27) 1 = Some (ph_flags h) /\ number buf (pos + 28) 2 = Some (ph_free h) /\ number buf (pos + 30) 2 = Some (ph_used h).
Definition index_layout (buf : list N) (pos : N) (c : icontent) : Prop :=
  let h := ic_header c in
  number buf (pos + 32) 2 = Some (ih_a h) /\ number buf (pos + 34) 2 = Some (ih_b h) /\ number buf (pos + 36) 2 = Some 0x3ec /\
  number buf (pos + 38) 2 = Some (ih_next_offset h) /\ number buf (pos + 40) 4 = Some (ih_page h) /\ number buf (pos + 44) 4 = Some (ih_next h) /\
  number buf (pos + 48) 8 = Some 0x3ffffff /\ number buf (pos + 56) 2 = Some (ih_num h) /\ number buf (pos + 58) 2 = Some (ih_first_empty h) /\
  len (ic_entries c) = ih_num h /\ forall i e, getN (ic_entries c) i = Some e -> number buf (pos + 60 + 4 * i) 4 = Some e.
(** Row [s] of a page: its group is [s / 16], counted from the end of the page; [endp] is the end of the page.  A row is present if its bit is set. *)
Definition slot_present (buf : list N) (endp s : N) : Prop :=
  exists fl, number buf (endp - 36 * (s / 16) - 4) 2 = Some fl /\ (fl / 2 ^ (s mod 16)) mod 2 = 1.
Definition slot_offset (buf : list N) (endp s : N) : option N := number buf (endp - 36 * (s / 16) - 6 - 2 * (s mod 16)) 2.
Definition data_layout (rs : parser dstr) (buf : list N) (pos ps : N) (h : phdr) (c : dcontent) : Prop :=
  (exists x1 x2 x3 x4, dc_header c = [VInt x1; VInt x2; VInt x3; VInt x4] /\ number buf (pos + 32) 2 = Some x1 /\ number buf (pos + 34) 2 = Some x2 /\
    number buf (pos + 36) 2 = Some x3 /\ number buf (pos + 38) 2 = Some x4) /\
  (* the row groups *)
  len (dc_groups c) = (c_rows (ph_counts h) + 15) / 16 /\
  (forall g x, getN (dc_groups c) g = Some x -> number buf (pos + ps - 36 * g - 4) 2 = Some (rg_flags x) /\ number buf (pos + ps - 36 * g - 2) 2 = Some (rg_unknown x) /\
    forall i, i < 16 -> exists o, getN (rg_offs x) (15 - i) = Some o /\ slot_offset buf (pos + ps) (16 * g + i) = Some o) /\
  (* the rows *)
  NoDup (map fst (dc_rows c)) /\ len (dc_rows c) = c_valid (ph_counts h) /\
  forall o r, In (o, r) (dc_rows c) <->
    (exists s, s / 16 < len (dc_groups c) /\ slot_present buf (pos + ps) s /\ slot_offset buf (pos + ps) s = Some o) /\
    exists q, rd_row rs (ph_type h) buf (pos + 40 + o) = Ok (r, q).

Lemma ptype_number db x : type_number db (ptype_of db x) x.
Proof.
  unfold ptype_of. destruct (find (fun k => kind_code k =? x) (db_kinds db)) as [k|] eqn:E.
  - apply find_some in E as [H1 H2]. apply N.eqb_eq in H2 as <-. destruct db; cbn in H1; repeat (destruct H1 as [<-|H1]; [cbn; tauto|]); destruct H1.
  - split; [reflexivity|]. intros k HI. pose proof (find_none _ _ E k) as F. destruct db; cbn in HI;
      repeat (destruct HI as [HI|HI]; [injection HI as <- <-; cbn in F; specialize (F ltac:(tauto)); discriminate|]); destruct HI.
Qed.
Ltac invr := repeat match goal with R : (let* _ <- _; _) _ _ = Ok _ |- _ => apply bind_inv in R as (? & ? & ? & ?) end;
  repeat match goal with R : ret _ _ _ = Ok _ |- _ => apply ret_inv in R as [<- <-] end;
  repeat match goal with R : guard _ _ _ _ = Ok _ |- _ => apply guard_inv in R as [? <-] end;
  repeat match goal with R : rd_int _ _ _ _ = Ok _ |- _ => apply rd_int_number in R as [? ->]; [|lia] end;
  repeat match goal with R : (_ =? _) = true |- _ => apply N.eqb_eq in R; subst end; cbn [number_of] in *.
Ltac byplace := match goal with R : number ?b ?x ?w = Some _ |- number ?b ?y ?w = Some _ => replace y with x by lia; exact R end.
Lemma phdr_layout db buf pos h p : rd_phdr db buf pos = Ok (h, p) -> p = pos + 32 /\ header_layout db buf pos h.
Proof.
  intro R. unfold rd_phdr in R. apply bind_inv in R as (vs & q & R & R'). cbn [phdr_fields rd_fields u16f u32f rd_field u8f] in R. invr.
  apply lift_eq in R' as [R' <-]. apply Ok_eq in R' as <-. split; [lia|]. unfold header_layout. cbn [ph_index ph_type ph_next ph_unknown1 ph_unknown2 ph_counts ph_flags ph_free ph_used].
  repeat split; try byplace; try assumption.
  - eexists. split; [byplace|]. apply ptype_number.
  - eexists. split; [byplace|]. now split.
Qed.
Lemma icontent_layout buf pos c p : rd_icontent buf (pos + 32) = Ok (c, p) -> index_layout buf pos c.
Proof.
  intro R. unfold rd_icontent in R. apply bind_inv in R as (vs & q & R1 & R). apply bind_inv in R as (h & q1 & R2 & R). apply bind_inv in R as (es & q2 & R3 & R).
  apply ret_inv in R as [<- _]. cbn [ihdr_fields rd_fields u16f u32f rd_field u8f] in R1. invr.
  apply lift_eq in R2 as [R2 <-]. apply Ok_eq in R2 as <-. cbn [ih_num] in R3. apply (rd_count_numbers LE) in R3 as (L & _ & G); [|lia]. cbn [number_of] in G.
  unfold index_layout. cbn [ic_header ic_entries ih_a ih_b ih_next_offset ih_page ih_next ih_num ih_first_empty].
  repeat split; try byplace; try assumption.
  - unfold len. lia.
  - intros i e HE. apply G in HE. byplace.
Qed.
Lemma testbit_div x i : N.testbit x i = true <-> (x / 2 ^ i) mod 2 = 1.
Proof. rewrite <- N.testbit_spec'. destruct (N.testbit x i); cbn; split; congruence. Qed.
Lemma dcontent_layout b rs db ps h buf pos c p : bytes_ok buf -> 40 <= ps ->
  rd_dcontent b rs ps h buf (pos + 32) = Ok (c, p) -> p = pos + ps /\ (header_layout db buf pos h -> data_layout rs buf pos ps h c).
Proof.
  intros HB HP R. unfold rd_dcontent in R. apply bind_inv in R as (dh & q & R1 & R). apply bind_inv in R as (heap & q1 & R2 & R).
  apply lift_eq in R2 as [R2 <-]. rewrite page_heap_ok in R2 by assumption. apply Ok_eq in R2 as <-.
  apply bind_inv in R as (base & q2 & RT & R). unfold tell in RT. apply Ok_eq in RT. injection RT as <- <-.
  apply bind_inv in R as (u & q3 & RS & R). unfold seek_to in RS. apply Ok_eq in RS. injection RS as _ <-.
  apply bind_inv in R as (gs & q4 & RG & R). apply bind_inv in R as (u2 & q5 & RS & R). unfold seek_to in RS. apply Ok_eq in RS. injection RS as _ <-.
  apply bind_inv in R as (rows & q6 & RR & R). apply bind_inv in R as (u3 & q7 & RV & R). apply guard_inv in RV as [RV <-].
  apply bind_inv in R as (u4 & q8 & RS & R). unfold seek_to in RS. apply Ok_eq in RS. injection RS as _ <-. apply ret_inv in R as [<- <-].
  cbn [dhdr_fields rd_fields u16f rd_field] in R1. invr.
  match type of RR with match rd_rows_at _ _ ?x _ _ _ with _ => _ end = _ => replace x with (pos + 40) in * by lia end.
  match type of RG with rd_count _ _ _ ?x = _ => replace x with (pos + ps) in * by lia end.
  split; [lia|]. intro HH. unfold data_layout. cbn [dc_header dc_groups dc_rows].
  destruct (rd_rows_at rs (ph_type h) (pos + 40) (flat_map present_offsets gs) [] buf) as [m| |] eqn:RA; try discriminate. apply Ok_eq in RR. injection RR as -> <-.
  pose proof RG as RG2. apply groups_numbers in RG as (LG & GG). apply groups_rw in RG2 as (_ & OKG & _ & _ & _); [|assumption].
  apply rd_rows_at_inv in RA as (S & GR & K). assert (sorted rows) as HS by (apply S; constructor). clear S.
  assert (forall g x, getN gs g = Some x -> number buf (pos + ps - 36 * g - 4) 2 = Some (rg_flags x) /\ number buf (pos + ps - 36 * g - 2) 2 = Some (rg_unknown x) /\
    forall i, i < 16 -> exists o, getN (rg_offs x) (15 - i) = Some o /\ slot_offset buf (pos + ps) (16 * g + i) = Some o) as HG.
  { intros g x HX. apply GG in HX as (B & r & HX). apply rgroup_numbers in HX as (_ & _ & _ & F & U & O). split; [exact F|]. split; [exact U|].
    intros i Hi. destruct (O i Hi) as (o & O1 & O2). exists o. split; [exact O1|]. unfold slot_offset.
    replace ((16 * g + i) / 16) with g by lia. now replace ((16 * g + i) mod 16) with i by lia. }
  split. { do 4 eexists. split; [reflexivity|]. repeat split; byplace. }
  split. { unfold len, num_row_groups in *. lia. }
  split; [exact HG|]. split; [now apply sorted_NoDup|]. split; [lia|].
  intros o r. assert (In o (flat_map present_offsets gs) <-> exists s, s / 16 < len gs /\ slot_present buf (pos + ps) s /\ slot_offset buf (pos + ps) s = Some o) as HO.
  { rewrite (present_slots gs o OKG). split; intros (s & HS1 & HS2); exists s.
    - unfold slot_flag, slot_off in *. destruct (getN gs (s / 16)) as [g|] eqn:EG; [|discriminate]. split; [now apply getN_Some_lt in EG|].
      destruct (HG _ _ EG) as (F & _ & O). destruct (O (s mod 16)) as (o' & O1 & O2); [lia|]. replace (16 * (s / 16) + s mod 16) with s in O2 by lia.
      split; [exists (rg_flags g); split; [exact F|now apply testbit_div]|]. congruence.
    - destruct HS2 as [(fl & F1 & F2) O1]. unfold slot_flag, slot_off. destruct (getN_lt_Some gs (s / 16)) as [g EG]; [lia|]. rewrite EG.
      destruct (HG _ _ EG) as (F & _ & O). destruct (O (s mod 16)) as (o' & O3 & O2); [lia|]. replace (16 * (s / 16) + s mod 16) with s in O2 by lia.
      split; [apply testbit_div; congruence|congruence]. }
  rewrite <- HO. split.
  - intro HI. apply map_get_in in HI; [|assumption]. apply GR in HI as [HI|[_ HI]]; [exact HI|discriminate].
  - intros [HI (q & HQ)]. assert (In o (keys rows)) as HK by (apply K; now left). destruct (map_get o rows) as [r'|] eqn:EM; [|now apply map_get_none in EM].
    pose proof EM as EM2. apply map_get_some in EM2. apply GR in EM as [(_ & q' & HQ')|[_ EM]]; [|discriminate]. now replace r with r' by congruence.
Qed.
Lemma page_layout b rs ps db buf pos pg p : bytes_ok buf -> 40 <= ps -> rd_page b rs ps db buf pos = Ok (pg, p) ->
  header_layout db buf pos (pg_header pg) /\
  match pg_content pg with
  | PIndex c => (ph_flags (pg_header pg) / 64) mod 2 = 1 /\ index_layout buf pos c
  | PData c => (ph_flags (pg_header pg) / 64) mod 2 = 0 /\ data_layout rs buf pos ps (pg_header pg) c /\ p = pos + ps
  end.
Proof.
  intros HB HP R. unfold rd_page in R. apply bind_inv in R as (h & q & RH & R). apply phdr_layout in RH as [-> HH].
  unfold is_index_page in R. change 64 with (2 ^ 6). rewrite <- N.testbit_spec'. destruct (N.testbit (ph_flags h) 6) eqn:E.
  - apply bind_inv in R as (c & q1 & RC & R). apply ret_inv in R as [<- <-]. cbn [pg_header pg_content]. split; [exact HH|]. rewrite E. split; [reflexivity|]. now apply icontent_layout in RC.
  - apply bind_inv in R as (c & q1 & RC & R). apply ret_inv in R as [<- <-]. cbn [pg_header pg_content]. split; [exact HH|]. rewrite E. split; [reflexivity|].
    destruct (dcontent_layout b rs db ps h buf pos c q1 HB HP RC) as [-> D]. split; [now apply D|reflexivity].
Qed.

(** ** The header of a database *)
Definition tables_layout (db : dbtype) (buf : list N) (h : dbhdr) : Prop :=
  number buf 0 4 = Some 0 /\ number buf 4 4 = Some (dh_page_size h) /\ number buf 8 4 = Some (dh_num h) /\ number buf 12 4 = Some (dh_next h) /\
  number buf 16 4 = Some (dh_unknown h) /\ number buf 20 4 = Some (dh_seq h) /\ number buf 24 4 = Some 0 /\ len (dh_tables h) = dh_num h /\
  forall i t, getN (dh_tables h) i = Some t ->
    (exists x, number buf (28 + 16 * i) 4 = Some x /\ type_number db (tb_type t) x) /\ number buf (32 + 16 * i) 4 = Some (tb_empty t) /\
    number buf (36 + 16 * i) 4 = Some (tb_first t) /\ number buf (40 + 16 * i) 4 = Some (tb_last t).
Ltac inv4 := repeat match goal with R : rd_le _ _ _ = Ok _ |- _ => apply rd_le_number in R as [? ->]; [|lia] end;
  repeat match goal with R : magic_le _ _ _ _ = Ok _ |- _ => apply magic_le_number in R as [? ->]; [|lia] end.
Lemma tables_numbers db buf : forall n pos ts p, rd_count n (rd_table db) buf pos = Ok (ts, p) -> List.length ts = n /\
  forall i t, getN ts i = Some t ->
    (exists x, number buf (pos + 16 * i) 4 = Some x /\ type_number db (tb_type t) x) /\ number buf (pos + 4 + 16 * i) 4 = Some (tb_empty t) /\
    number buf (pos + 8 + 16 * i) 4 = Some (tb_first t) /\ number buf (pos + 12 + 16 * i) 4 = Some (tb_last t).
Proof.
  induction n as [|n IH]; intros pos ts p H; cbn [rd_count] in H.
  - apply ret_inv in H as [<- <-]. split; [easy|]. intros k g HG. apply getN_Some_lt in HG. cbn in HG. lia.
  - apply bind_inv in H as (t & p1 & R & H). apply bind_inv in H as (ts' & p2 & R2 & H). apply ret_inv in H as [<- <-].
    unfold rd_table in R. apply bind_inv in R as (ty & q & RT & R). unfold rd_ptype in RT. apply bind_inv in RT as (x & q1 & RX & RT). apply ret_inv in RT as [<- <-].
    invr. inv4. apply IH in R2 as (L & G). split; [cbn; lia|]. intros k g HG. rewrite getN_cons in HG. destruct (k =? 0) eqn:E.
    + apply N.eqb_eq in E as ->. injection HG as <-. cbn [tb_type tb_empty tb_first tb_last]. repeat split; try byplace. exists x. split; [byplace|apply ptype_number].
    + apply G in HG as ((y & G1 & G2) & G3 & G4 & G5). repeat split; try byplace. exists y. split; [byplace|exact G2].
Qed.
Lemma dbhdr_layout db buf h p : rd_dbhdr db buf 0 = Ok (h, p) -> tables_layout db buf h.
Proof.
  intro R. unfold rd_dbhdr in R. do 7 (apply bind_inv in R as (? & ? & ? & R)). apply bind_inv in R as (ts & q & RT & R). apply ret_inv in R as [<- _].
  inv4. apply tables_numbers in RT as (L & G). unfold tables_layout. cbn [dh_page_size dh_num dh_next dh_unknown dh_seq dh_tables].
  repeat match goal with |- _ /\ _ => split end; try byplace.
  - unfold len. lia.
  - intros i t HT. apply G in HT as ((y & G1 & G2) & G3 & G4 & G5). repeat split; try byplace. exists y. split; [byplace|exact G2].
Qed.
Lemma open_layout io k d : db_open io k = DOk d -> tables_layout k io (db_header d).
Proof.
  unfold db_open. destruct (rd_dbhdr k io 0) as [[h p]| |] eqn:E; [|discriminate|discriminate]. intro H. assert (db_header d = h) as -> by (now injection H as <-).
  now apply dbhdr_layout in E.
Qed.
Lemma number_lt buf : bytes_ok buf -> forall w pos x, number buf pos w = Some x -> x < 256 ^ N.of_nat w.
Proof.
  intro HB. induction w as [|w IH]; intros pos x H; cbn [number] in H; [injection H as <-; reflexivity|].
  destruct (getN buf pos) as [a|] eqn:E; [|discriminate]. destruct (number buf (pos + 1) w) as [y|] eqn:E2; [|discriminate]. assert (x = a + 256 * y) as -> by congruence.
  apply IH in E2. assert (a < 256). { unfold bytes_ok in HB. rewrite Forall_forall in HB. apply HB. apply in_getN. now exists pos. }
  rewrite Nat2N.inj_succ, N.pow_succ_r'. revert E2. generalize (256 ^ N.of_nat w). intros P E2. lia.
Qed.
Lemma opened_page_layout b io k d i pg : bytes_ok io -> db_open io k = DOk d -> 40 <= dh_page_size (db_header d) -> 1 <= i -> snd (load_page b d i) = DOk pg ->
  exists p, rd_page b (rd_dstr b) (dh_page_size (db_header d)) k io (i * dh_page_size (db_header d)) = Ok (pg, p).
Proof.
  intros HB HO HP Hi HL. pose proof (open_layout _ _ _ HO) as HT. destruct (open_pages _ _ _ HB HO) as (E1 & E2 & E3).
  destruct HT as (_ & T1 & _ & T2 & _). apply (number_lt _ HB) in T1, T2. change (256 ^ N.of_nat 4) with (2 ^ 32) in *.
  destruct (i <=? len (db_pages d)) eqn:EI; [|rewrite load_page_absent in HL by lia; discriminate].
  rewrite load_lookup in HL by lia. rewrite E3 in HL by lia.
  assert (db_kind d = k) as EK. { unfold db_open in HO. destruct (rd_dbhdr k io 0) as [[h q]| |]; [|discriminate|discriminate]. now injection HO as <-. }
  rewrite E1, EK in HL. destruct (rd_page _ _ _ _ _ _) as [[pg' p]| |]; [|discriminate|discriminate]. exists p. now injection HL as ->.
Qed.
Lemma flushed_layout b d d' : dbhdr_ok (db_kind d) (db_header d) -> 28 + 16 * len (dh_tables (db_header d)) <= dh_page_size (db_header d) ->
  all_inside b d -> flush b d = DOk d' -> tables_layout (db_kind d) (db_io d') (db_header d).
Proof.
  intros HO HL HI HF. pose proof (flush_header b d d' HL HI HF) as HH. apply has_app in HH as [HH _]. apply (dbhdr_wr (db_kind d)) in HH; [|assumption].
  now apply dbhdr_layout in HH.
Qed.
