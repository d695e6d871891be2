(** * Properties C11 to C13, C61: rows *)
From Coq Require Import NArith List Bool.
From Verif Require Import Base BaseFacts Segs Utf Str StrFacts StrGood Schema SchemaFacts EnumFacts Oa OaFacts OaSpec Rows RowFacts RowSpec.
Import ListNotations.
Open Scope N_scope.

(** C11: computed offsets or none. *)
Theorem c11_write_read : forall b r pt buf pos buf' p,
  row_ok dstr_good r -> row_calc r -> row_ptype_ok pt r -> row_write b r (buf, pos) = Ok (buf', p) ->
  exists r' p', rd_row (rd_dstr b) pt buf' pos = Ok (r', p') /\ made_explicit b r r'.
Proof. exact row_calc_write_read. Qed.
Print Assumptions c11_write_read.
(** Given offsets: the pieces must not overlap. *)
Theorem c11_write_read_provided : forall b r pt buf pos buf' p l r0 p0,
  row_ok dstr_good r -> row_ptype_ok pt r -> row_segs b r pos = Ok (l, r0, p0) -> segs_disj l ->
  row_write b r (buf, pos) = Ok (buf', p) ->
  exists r' p', rd_row (rd_dstr b) pt buf' pos = Ok (r', p') /\ made_explicit b r r'.
Proof. exact row_write_read. Qed.
Print Assumptions c11_write_read_provided.
Definition c11_artist : row := RRow KArtist [VInt 0x60; VInt 0x20; VInt 7] (Some (mk_oarr None [DSUcs2 [233; 97]])).
Example c11_example_hyp : row_ok dstr_good c11_artist /\ row_calc c11_artist /\ row_ptype_ok (PT KArtist) c11_artist.
Proof.
  split; [|split; reflexivity]. split; [repeat constructor|]. split; [reflexivity|]. split; [|exact I].
  constructor; [|constructor]. split; [|split]; cbn; repeat split; repeat constructor; try easy.
Qed.
Example c11_example :
  exists buf', row_write Debug c11_artist ([9], 1) = Ok (buf', 11) /\
    rd_row (rd_dstr Debug) (PT KArtist) buf' 1
      = Ok (RRow KArtist [VInt 0x60; VInt 0x20; VInt 7] (Some (mk_oarr (Some (mk_offs OS8 [12])) [DSUcs2 [233; 97]])), 1).
Proof. eexists. split; reflexivity. Qed.
(** Overlapping offsets: both strings of a tag at the same place; the second write wins. *)
Example c11_overlap :
  let r := RRow KTag [VInt 0x680; VInt 0; VInt 0; VInt 0; VInt 0; VInt 0; VInt 1; VInt 0]
             (Some (mk_oarr (Some (mk_offs OS8 [32; 32])) [DSShort [97]; DSShort [98]])) in
  exists buf' p, row_write Debug r ([], 0) = Ok (buf', p) /\
    exists r', rd_row (rd_dstr Debug) (PT KTag) buf' 0 = Ok (r', 0) /\ r' <> r.
Proof. eexists _, _. split; [reflexivity|]. eexists. split; [reflexivity|]. discriminate. Qed.

(** C12 *)
Theorem c12_read_write_back : forall b pt buf pos r p,
  bytes_ok buf -> len buf < 2 ^ 64 - 1 -> pos <= len buf -> rd_row (rd_dstr_strict b) pt buf pos = Ok (r, p) ->
  rd_row (rd_dstr b) pt buf pos = Ok (r, p) /\ exists p', row_write b r (buf, pos) = Ok (buf, p').
Proof. exact row_read_write_back. Qed.
Print Assumptions c12_read_write_back.
(** The strict reader refuses only ISRC strings. *)
Theorem c12_strict_reader : forall b buf pos d p,
  rd_dstr b buf pos = Ok (d, p) -> (forall v, d <> DSIsrc v) -> rd_dstr_strict b buf pos = Ok (d, p).
Proof. exact rd_dstr_strict_same. Qed.
Print Assumptions c12_strict_reader.
Example c12_example :
  rd_row (rd_dstr_strict Release) (PT KKey) [1; 0; 0; 0; 2; 0; 0; 0; 7; 65; 109; 255; 255] 0
    = Ok (RRow KKey [VInt 1; VInt 2; VStr (DSShort [65; 109])] None, 11).
Proof. reflexivity. Qed.
(** The exception is real: an ISRC string with a wrong length field is changed. *)
Example c12_exception :
  let buf := [1; 0; 0; 0; 0x90; 99; 0; 0; 3; 65; 66; 0] in
  exists r, rd_row (rd_dstr Debug) (PT KGenre) buf 0 = Ok (r, 12) /\
    exists buf' p', row_write Debug r (buf, 0) = Ok (buf', p') /\ buf' <> buf.
Proof. eexists. split; [reflexivity|]. eexists _, _. split; [reflexivity|]. discriminate. Qed.

(** C13 *)
Theorem c13_exact : forall b r buf buf' p,
  row_ok dstr_inv r -> row_calc r -> r <> RUnknown -> row_write b r (buf, len buf) = Ok (buf', p) -> len buf' < len buf + 65536 ->
  exists n, row_heap b r = Ok n /\ len buf' = len buf + n /\ written_extent b r n.
Proof. exact row_heap_extent. Qed.
Print Assumptions c13_exact.
(** With overflow checks on, rows of any size: a prediction that is returned is exact. *)
Theorem c13_debug : forall r h,
  row_ok dstr_inv r -> row_calc r -> row_heap Debug r = Ok h -> written_extent Debug r h.
Proof. exact row_heap_debug_extent. Qed.
Print Assumptions c13_debug.
Example c13_example : row_heap Debug c11_artist = Ok 20 /\
  match row_write Debug c11_artist ([], 0) with Ok (buf, _) => len buf = 20 | _ => False end.
Proof. split; reflexivity. Qed.

(** C61 *)
Theorem c61_fallback : forall rs b e n codes v bs buf pos,
  n <> 0%nat -> codes_fit n codes -> enum_value n codes v -> enc_field b (FEnumF e n codes) v = Ok bs -> has buf pos bs ->
  (rd_field rs (FEnumF e n codes) buf pos = Ok (v, pos + N.of_nat n) <-> ~ exists c, v = VOther c /\ In c codes).
Proof. exact enum_fallback. Qed.
Print Assumptions c61_fallback.
Theorem c61_file_type : forall rs b v bs buf pos,
  enum_value 2 [0; 1; 4; 5; 11; 12] v -> enc_field b (FEnumF LE 2 filetype_codes) v = Ok bs -> has buf pos bs ->
  (rd_field rs (FEnumF LE 2 filetype_codes) buf pos = Ok (v, pos + 2) <-> ~ exists c, v = VOther c /\ In c [0; 1; 4; 5; 11; 12]).
Proof. exact filetype_fallback. Qed.
Print Assumptions c61_file_type.
Theorem c61_menu_visibility : forall rs b v bs buf pos,
  enum_value 1 [0; 1] v -> enc_field b (FEnumF LE 1 menuvis_codes) v = Ok bs -> has buf pos bs ->
  (rd_field rs (FEnumF LE 1 menuvis_codes) buf pos = Ok (v, pos + 1) <-> ~ exists c, v = VOther c /\ In c [0; 1]).
Proof. exact menuvis_fallback. Qed.
Print Assumptions c61_menu_visibility.
Theorem c61_page_type : forall db pt buf pos,
  ptype_code pt < 2 ^ 32 -> has buf pos (le_enc 4 (ptype_code pt)) ->
  (rd_ptype db buf pos = Ok (pt, pos + 4) <->
   match pt with PT k => In k (db_kinds db) | PTUnknown c => ~ exists k, In k (db_kinds db) /\ kind_code k = c end).
Proof. exact ptype_fallback. Qed.
Print Assumptions c61_page_type.
Theorem c61_color_index : forall rs x buf pos,
  getN buf pos = Some x ->
  rd_field rs (FEnum LE 1 color_codes) buf pos = if x <=? 8 then Ok (VNamed x, pos + 1) else Err ENoVariant.
Proof. exact color_reject. Qed.
Print Assumptions c61_color_index.
Example c61_example :
  rd_field (rd_dstr Debug) (FEnumF LE 2 filetype_codes) [11; 0; 7; 0] 0 = Ok (VNamed 11, 2) /\
  rd_field (rd_dstr Debug) (FEnumF LE 2 filetype_codes) [11; 0; 7; 0] 2 = Ok (VOther 7, 4) /\
  enc_field Debug (FEnumF LE 2 filetype_codes) (VOther 11) = Ok [11; 0].
Proof. repeat split. Qed.
