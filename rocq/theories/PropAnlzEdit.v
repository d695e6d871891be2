(** * Changing analysis files: sizes that have to follow (C85) *)
From Coq Require Import NArith ZArith List Bool Lia.
From Coq Require Import ZifyBool ZifyNat ZifyN.
From Verif Require Import Base BaseFacts Utf UtfFacts Str Schema SchemaFacts Xor XorFacts Anlz AnlzFacts AnlzSpec AnlzCodec AnlzSong AnlzSections AnlzLoop AnlzFile PropAnlz.
Import ListNotations.
Open Scope N_scope.
Ltac Zify.zify_post_hook ::= Z.div_mod_to_equations.

(** A program reads an analysis file, changes the public fields of the value ([ANLZ.header], [ANLZ.sections],
    [Section.header], [BeatGrid.beats], [CueList.cues], [Path.path], ...), and writes it.  The sizes in the headers are
    fields like any other: nothing computes them. *)

(** ** Specification: the number of bytes of a section, from the documented structure *)
Definition ecue_size (c : ecue) : N := 68 + comment_size (ec_comment c) + len (ec_trailing c).
Definition sum (l : list N) : N := fold_right N.add 0 l.
Definition wave_fixed (w : wave) : N := match w with WPreview | WTiny | W3Preview => 20 | _ => 24 end.
Definition section_size (s : section) : N :=
  match se_content s with
  | CBeatGrid _ _ beats => 24 + 8 * len beats
  | CCueList _ _ _ cues => 24 + 56 * len cues
  | CExtendedCueList _ _ cues => 20 + sum (map ecue_size cues)
  | CPath p => 16 + 2 * (len p + 1)
  | CVBR _ d => 16 + len d
  | CWave f => wave_fixed (wf_type f) + column_size (wf_type f) * len (wf_data f)
  | CSong s => 32 + 24 * len (sd_phrases (so_data s))
  | CUnknown hd d => 12 + len hd + len d
  end.
Definition total (l : list section) : N := sum (map section_size l).
(** A file with sections that are fine each; its total size may be anything. *)
Definition file_ok (b : build) (a : anlz) : Prop :=
  header_ok (an_header a) /\ h_kind (an_header a) = KFile /\ bytes_ok (an_header_data a) /\
  h_size (an_header a) = 12 + len (an_header_data a) /\ Forall (section_ok b) (an_sections a).
Definition with_sections (a : anlz) (l : list section) : anlz :=
  {| an_header := an_header a; an_header_data := an_header_data a; an_sections := l |}.
(** [kept] are the sections of [kept ++ rest] that begin before [n] bytes are reached; those bytes are there. *)
Definition begun (n : N) (kept : list section) : Prop :=
  n <= total kept /\ forall k s, kept = k ++ [s] -> total k < n.

(** ** Sizes *)
Lemma enc_all_len {A} (enc : A -> res (list N)) (size : A -> N) : forall l bs,
  (forall v a, In v l -> enc v = Ok a -> len a = size v) -> enc_all enc l = Ok bs -> len bs = sum (map size l).
Proof.
  induction l as [|v l IH]; intros bs HN HE; cbn [enc_all] in HE; [now apply Ok_inj in HE as <-|].
  destruct (enc v) as [x| |] eqn:EX; [|easy|easy]. cbn [res_bind] in HE. destruct (enc_all enc l) as [y| |] eqn:EY; [|easy|easy].
  apply Ok_inj in HE as <-. rewrite len_app, (HN v x (or_introl eq_refl) EX), (IH y); [reflexivity| |easy]. intros w z HI. apply HN. now right.
Qed.
Lemma plain_list_len b fs l bs : no_str fs = true -> Forall (plain_ok fs) l -> enc_all (enc_fields b fs) l = Ok bs -> len bs = fields_size fs * len l.
Proof.
  intros HS HP. apply enc_all_inv. intros v a HI HE. rewrite Forall_forall in HP. destruct (plain_size b fs v HS (HP v HI)) as (x & E & L). rewrite E in HE. now apply Ok_inj in HE as <-.
Qed.
Lemma list_type_len b ty t : u32_list_type ty -> enc_field b cue_list_type ty = Ok t -> len t = 4.
Proof. intros [->| ->] H; vm_compute in H; now apply Ok_inj in H as <-. Qed.
Lemma section_len b s bs : section_ok b s -> enc_section b s = Ok bs -> len bs = section_size s.
Proof.
  intros (HH & _ & HC & HZ & _) HE. unfold enc_section in HE. destruct (enc_content b (se_content s)) as [cb| |] eqn:EC; [|easy|easy]. cbn [res_bind] in HE.
  apply Ok_inj in HE as <-. rewrite len_app, len_enc_header. unfold section_size. destruct HH as (_ & _ & HT).
  destruct (se_content s) as [u1 u2 beats|ty u mc cues|ty u cues|p|u d|f|so|hd d]; cbn [content_ok enc_content counted_size] in *.
  - destruct HC as (_ & _ & _ & HC). destruct (enc_all _ beats) as [x| |] eqn:EX; [|easy|easy]. cbn [res_bind] in EC. apply Ok_inj in EC as <-.
    rewrite !len_app, !len_be_enc, (plain_list_len b beat_fields beats x eq_refl HC EX). change (fields_size beat_fields) with 8. cbn [N.of_nat]. lia.
  - destruct HC as (HY & _ & _ & _ & HC). destruct (enc_field b cue_list_type ty) as [t| |] eqn:ET; [|easy|easy]. cbn [res_bind] in EC.
    destruct (enc_all _ cues) as [x| |] eqn:EX; [|easy|easy]. cbn [res_bind] in EC. apply Ok_inj in EC as <-. apply list_type_len in ET; [|easy].
    rewrite !len_app, !len_be_enc, ET. rewrite (enc_all_inv (enc_cue b) 56 cues x); [cbn [N.of_nat]; lia| |easy]. intros v z HI HE. rewrite Forall_forall in HC.
    destruct (enc_cue_total b v (HC v HI)) as (y & E & L). rewrite E in HE. now apply Ok_inj in HE as <-.
  - destruct HC as (HY & _ & _ & HC). destruct (enc_field b cue_list_type ty) as [t| |] eqn:ET; [|easy|easy]. cbn [res_bind] in EC.
    destruct (enc_all _ cues) as [x| |] eqn:EX; [|easy|easy]. cbn [res_bind] in EC. apply Ok_inj in EC as <-. apply list_type_len in ET; [|easy].
    rewrite !len_app, !len_be_enc, ET. rewrite (enc_all_len (enc_ecue b) ecue_size cues x); [cbn [N.of_nat]; lia| |easy]. intros v z HI HE. rewrite Forall_forall in HC.
    destruct (enc_ecue_total b v (HC v HI)) as (y & E & L). rewrite E in HE. now apply Ok_inj in HE as <-.
  - rewrite path_size_ok in EC by lia. cbn [res_bind] in EC. apply Ok_inj in EC as <-. rewrite !len_app, len_be_enc, len_units, !len_cons, (@len_nil N). cbn [N.of_nat]. lia.
  - apply Ok_inj in EC as <-. rewrite len_app, len_be_enc. cbn [N.of_nat]. lia.
  - destruct HC as [HU HC]. unfold enc_wave in EC. destruct (enc_all _ (wf_data f)) as [x| |] eqn:EX; [|easy|easy]. cbn [res_bind] in EC. apply Ok_inj in EC as <-.
    apply plain_list_len in EX; [|now destruct (wf_type f)|easy]. rewrite !len_app, !len_be_enc, EX. cbn [N.of_nat].
    replace (fields_size (wave_fields (wf_type f))) with (column_size (wf_type f)) by now destruct (wf_type f). set (n := _ * _).
    destruct (wf_type f), (wf_unknown f); try easy; cbn [wave_entry wave_fixed]; rewrite ?len_be_enc, ?(@len_nil N); cbn [N.of_nat]; lia.
  - destruct HC as [HD [HN HK]]. unfold enc_song, enc_encrypted in EC. destruct (song_data_enc b _ HD) as (x & E & L). rewrite (N.mod_small (len _)) in EC by easy. rewrite E in EC.
    destruct (so_encrypted so); cbn [res_bind] in EC.
    + rewrite get_key_19 in EC by (apply key_fits_19; now destruct b). cbn [res_bind] in EC. apply Ok_inj in EC as <-.
      rewrite !len_app, !len_be_enc, len_xor_cycle, L. cbn [N.of_nat]. lia.
    + apply Ok_inj in EC as <-. rewrite !len_app, !len_be_enc, L. cbn [N.of_nat]. lia.
  - apply Ok_inj in EC as <-. rewrite len_app. lia.
Qed.
Lemma sections_len b l bs : Forall (section_ok b) l -> enc_all (enc_section b) l = Ok bs -> len bs = total l.
Proof. intros HO. apply enc_all_len. intros v x HI HE. rewrite Forall_forall in HO. now apply (section_len b v x (HO v HI)). Qed.
Lemma sections_total b l : Forall (section_ok b) l -> exists bs, enc_all (enc_section b) l = Ok bs.
Proof. apply enc_all_total. intros v HV. now apply enc_section_total. Qed.
Lemma enc_all_app {A} (enc : A -> res (list N)) : forall l1 l2 x y, enc_all enc l1 = Ok x -> enc_all enc l2 = Ok y -> enc_all enc (l1 ++ l2) = Ok (x ++ y).
Proof.
  induction l1 as [|v l IH]; intros l2 x y H1 H2; cbn [enc_all List.app] in *; [now apply Ok_inj in H1 as <-|].
  destruct (enc v) as [a| |]; [|easy|easy]. cbn [res_bind] in *. destruct (enc_all enc l) as [c| |] eqn:E; [|easy|easy]. apply Ok_inj in H1 as <-.
  rewrite (IH l2 c y eq_refl H2). cbn [res_bind]. now rewrite app_assoc.
Qed.
Lemma total_app l1 l2 : total (l1 ++ l2) = total l1 + total l2.
Proof. unfold total. induction l1 as [|s l IH]; [easy|]. cbn [List.app map sum fold_right] in *. unfold sum in *. lia. Qed.
Lemma total_cons s l : total (s :: l) = section_size s + total l.
Proof. reflexivity. Qed.
Lemma section_size_pos s : 12 <= section_size s.
Proof. unfold section_size. destruct (se_content s); try lia. destruct (wf_type f); cbn [wave_fixed]; lia. Qed.

(** ** The loop over what was written, with any end *)
Lemma begun_cons n s l : 0 < n -> begun n (s :: l) <-> begun (n - section_size s) l /\ (l <> [] -> section_size s < n).
Proof.
  intro HN. unfold begun. rewrite total_cons. split.
  - intros [H1 H2]. split; [split; [lia|]|].
    + intros k x ->. specialize (H2 (s :: k) x eq_refl). rewrite total_cons in H2. lia.
    + intro HL. destruct (exists_last HL) as (k & x & ->). specialize (H2 (s :: k) x eq_refl). rewrite total_cons in H2. lia.
  - intros [[H1 H2] H3]. split; [lia|]. intros k x E. destruct k as [|y k]; cbn [List.app] in E.
    + now cbn.
    + injection E as <- ->. rewrite total_cons. specialize (H2 k x eq_refl). lia.
Qed.
Lemma begun_nil n : begun n [] <-> n = 0.
Proof. unfold begun. change (total []) with 0. split; [lia|]. intros ->. split; [lia|]. intros k s E. now destruct k. Qed.
Lemma kept_sections b buf : forall kept rest pos n bs, Forall (section_ok b) kept -> enc_all (enc_section b) (kept ++ rest) = Ok bs -> has buf pos bs ->
  begun n kept -> sections_at b (pos + n) buf pos kept (pos + total kept).
Proof.
  induction kept as [|s kept IH]; intros rest pos n bs HO HE HB HN.
  - apply begun_nil in HN as ->. change (total []) with 0. rewrite N.add_0_r. constructor. lia.
  - assert (0 < n) as HP.
    { destruct HN as [_ HN]. destruct (@exists_last _ (s :: kept)) as (k & x & E); [easy|]. specialize (HN k x E). lia. }
    apply begun_cons in HN as [HN HX]; [|easy]. cbn [List.app enc_all] in HE. apply Forall_cons_iff in HO as [HS HO].
    destruct (enc_section b s) as [x| |] eqn:EX; [|easy|easy]. cbn [res_bind] in HE.
    destruct (enc_all (enc_section b) (kept ++ rest)) as [y| |] eqn:EY; [|easy|easy]. apply Ok_inj in HE as <-. apply has_app in HB as [B1 B2].
    pose proof (section_len b s x HS EX) as LX. pose proof (section_wr b s buf pos x HS EX B1) as HR. rewrite LX in *.
    apply (sa_more _ _ _ _ _ (pos + section_size s)); [lia|easy|]. rewrite total_cons, N.add_assoc.
    assert (kept = [] \/ kept <> []) as [->|HK] by (destruct kept; [now left|now right]).
    + change (total []) with 0. rewrite N.add_0_r. constructor. apply begun_nil in HN. lia.
    + specialize (HX HK). replace (pos + n) with (pos + section_size s + (n - section_size s)) by lia. now apply (IH rest (pos + section_size s) (n - section_size s) y).
Qed.
Lemma section_eof b buf pos : len buf <= pos -> rd_section b buf pos = Err EIo.
Proof. intro H. unfold rd_section, rd_header, rd_ckind, rd_be, bind. rewrite rd_bytes_eof by lia. reflexivity. Qed.
(** All sections are read and the end is not reached. *)
Lemma short_sections b buf final : forall l pos bs fuel, Forall (section_ok b) l -> enc_all (enc_section b) l = Ok bs -> has buf pos bs ->
  len buf = pos + len bs -> pos + len bs < final -> (length l < fuel)%nat -> sections_loop fuel b final buf pos = Some (Err EIo).
Proof.
  induction l as [|s l IH]; intros pos bs [|fuel] HO HE HB HL HF HU; try (cbn in HU; lia); cbn [enc_all] in HE; cbn [sections_loop];
    replace (pos <? final) with true by lia.
  - apply Ok_inj in HE as <-. rewrite (@len_nil N) in HL. rewrite section_eof by lia. reflexivity.
  - destruct (enc_section b s) as [x| |] eqn:EX; [|easy|easy]. cbn [res_bind] in HE.
    destruct (enc_all (enc_section b) l) as [y| |] eqn:EY; [|easy|easy]. apply Ok_inj in HE as <-. apply has_app in HB as [B1 B2].
    apply Forall_cons_iff in HO as [HS HO]. rewrite (section_wr b s buf pos x HS EX B1). rewrite len_app in *.
    rewrite (IH (pos + len x) y fuel HO eq_refl B2); [reflexivity|lia|lia|cbn in HU; lia].
Qed.
Lemma sections_count l : 12 * len l <= total l.
Proof. induction l as [|s l IH]; [easy|]. rewrite len_cons, total_cons. pose proof (section_size_pos s). lia. Qed.

Lemma file_enc b a : file_ok b a -> exists ss, enc_all (enc_section b) (an_sections a) = Ok ss /\ len ss = total (an_sections a) /\
  enc_anlz b a = Ok (enc_header (an_header a) ++ an_header_data a ++ ss).
Proof.
  intros (_ & _ & _ & _ & HS). destruct (sections_total b _ HS) as (ss & E). exists ss. split; [easy|]. split; [now apply (sections_len b)|].
  unfold enc_anlz. now rewrite E.
Qed.
(** What remains of reading a file after its header. *)
Lemma file_rd b a ss : file_ok b a -> h_size (an_header a) <= h_total (an_header a) ->
  enc_all (enc_section b) (an_sections a) = Ok ss ->
  let buf := enc_header (an_header a) ++ an_header_data a ++ ss in
  has buf (h_size (an_header a)) ss /\ len buf = h_size (an_header a) + len ss /\
  rd_anlz b buf 0 =
    match sections_loop (S (length buf)) b (h_total (an_header a)) buf (h_size (an_header a)) with
    | Some (Ok (l, p)) => Ok (with_sections a l, p)
    | Some (Err e) => Err e
    | _ => Panic
    end.
Proof.
  intros (HH & HK & HD & HZ & HS) HT HE buf.
  assert (has buf 0 (enc_header (an_header a) ++ an_header_data a ++ ss)) as HB. { exists [], []. split; [now rewrite app_nil_r|easy]. }
  apply has_app in HB as [B1 HB]. apply has_app in HB as [B2 B3]. rewrite len_enc_header in *. rewrite N.add_0_l in *. rewrite <- HZ in B3.
  split; [easy|]. split; [unfold buf; rewrite !len_app, len_enc_header; lia|].
  unfold rd_anlz, bind. rewrite (header_wr _ _ _ HH B1). rewrite HK. cbn [is_file]. rewrite guard_ok by easy. unfold lift, remaining_size, wsub.
  replace (12 <=? h_size (an_header a)) with true by lia. replace (h_size (an_header a) - 12) with (len (an_header_data a)) by lia.
  rewrite N.add_0_l. rewrite (rd_bytes_has _ _ _ B2). rewrite <- HZ. rewrite (content_size_ok b _ (h_total (an_header a) - h_size (an_header a))) by lia.
  unfold parse_sections, wadd. replace (h_size (an_header a) + (h_total (an_header a) - h_size (an_header a))) with (h_total (an_header a)) by lia.
  destruct HH as (_ & _ & HH). replace (h_total (an_header a) <? 2 ^ 64) with true by lia.
  destruct (sections_loop (S (length buf)) b (h_total (an_header a)) buf (h_size (an_header a))) as [[[l p]|e|]|]; reflexivity.
Qed.

(** C85: the written file has the size given by the structure; the sections read back from it are those that begin before
    the total size in its header; if that is larger than the file, there is an error. *)
Theorem c85_written : forall b a, file_ok b a -> exists bs, enc_anlz b a = Ok bs /\ len bs = h_size (an_header a) + total (an_sections a).
Proof.
  intros b a HA. destruct (file_enc b a HA) as (ss & _ & L & E). eexists. split; [exact E|]. rewrite !len_app, len_enc_header. destruct HA as (_ & _ & _ & HZ & _). lia.
Qed.
Print Assumptions c85_written.
Theorem c85_begun : forall b a bs kept rest n, file_ok b a -> enc_anlz b a = Ok bs ->
  h_size (an_header a) + n = h_total (an_header a) -> an_sections a = kept ++ rest -> begun n kept ->
  rd_anlz b bs 0 = Ok (with_sections a kept, h_size (an_header a) + total kept).
Proof.
  intros b a bs kept rest n HA HE HT HS HN. destruct (file_enc b a HA) as (ss & ES & LS & EB). rewrite EB in HE. apply Ok_inj in HE as <-.
  destruct (file_rd b a ss HA ltac:(lia) ES) as (B & L & ->). set (buf := _ ++ _ ++ _) in *. rewrite HS in *.
  assert (Forall (section_ok b) kept) as HO. { destruct HA as (_ & _ & _ & _ & HO). rewrite HS in HO. now apply Forall_app in HO as [HO _]. }
  pose proof (kept_sections b buf kept rest _ n ss HO ES B HN) as HL. rewrite HT in HL.
  rewrite (sections_loop_at _ _ _ _ _ _ HL); [reflexivity|]. pose proof (sections_count (kept ++ rest)) as HC. rewrite len_app in HC. unfold len in *. lia.
Qed.
Print Assumptions c85_begun.
Theorem c85_too_large : forall b a bs, file_ok b a -> enc_anlz b a = Ok bs -> h_size (an_header a) + total (an_sections a) < h_total (an_header a) ->
  rd_anlz b bs 0 = Err EIo.
Proof.
  intros b a bs HA HE HT. destruct (file_enc b a HA) as (ss & ES & LS & EB). rewrite EB in HE. apply Ok_inj in HE as <-.
  destruct (file_rd b a ss HA ltac:(lia) ES) as (B & L & ->). set (buf := _ ++ _ ++ _) in *.
  rewrite (short_sections b buf _ (an_sections a) _ ss); [reflexivity|now destruct HA as (_ & _ & _ & _ & HO)|easy|easy|easy|lia|].
  pose proof (sections_count (an_sections a)) as HC. unfold len in *. lia.
Qed.
Print Assumptions c85_too_large.
(** Between the two there is always such a beginning, and only one. *)
Theorem c85_beginning : forall l n, n <= total l -> exists! kept, (exists rest, l = kept ++ rest) /\ begun n kept.
Proof.
  induction l as [|s l IH]; intros n HN.
  - exists []. split; [split; [now exists []|]|].
    + apply begun_nil. cbn in HN. lia.
    + intros k [(r & E) _]. now destruct k.
  - destruct (N.eq_dec n 0) as [->|HZ].
    + exists []. split; [split; [now exists (s :: l)|now apply begun_nil]|]. intros k [_ [_ HB]].
      destruct k as [|x k]; [easy|]. destruct (@exists_last _ (x :: k)) as (k' & x' & E); [easy|]. specialize (HB k' x' E). lia.
    + rewrite total_cons in HN. destruct (N.le_gt_cases n (section_size s)) as [HL|HL].
      * exists [s]. split; [split; [now exists l|]|].
        { apply begun_cons; [lia|]. split; [apply begun_nil; lia|easy]. }
        intros k [(r & E) HB]. destruct k as [|x k]; [apply begun_nil in HB; lia|]. cbn [List.app] in E. injection E as <- ->.
        apply begun_cons in HB as [_ HB]; [|lia]. destruct k; [easy|]. specialize (HB ltac:(easy)). lia.
      * destruct (IH (n - section_size s)) as (kept & [(rest & ->) HB] & HU); [lia|]. exists (s :: kept). split; [split; [now exists rest|]|].
        { apply begun_cons; [lia|]. split; [easy|lia]. }
        intros k [(r & E) HK]. destruct k as [|x k]; [apply begun_nil in HK; lia|]. cbn [List.app] in E. injection E as <- E.
        apply begun_cons in HK as [HK _]; [|lia]. f_equal. apply HU. split; [now exists r|easy].
Qed.
Print Assumptions c85_beginning.
(** So the whole file is read back iff the total size ends within the last section. *)
Theorem c85_whole : forall b a bs, file_ok b a -> enc_anlz b a = Ok bs -> h_size (an_header a) <= h_total (an_header a) ->
  (rd_anlz b bs 0 = Ok (a, len bs) <-> begun (h_total (an_header a) - h_size (an_header a)) (an_sections a)).
Proof.
  intros b a bs HA HE HT. destruct (c85_written b a HA) as (bs' & HE' & L). rewrite HE in HE'. apply Ok_inj in HE' as <-. split.
  - intro HR. destruct (N.le_gt_cases (h_total (an_header a)) (h_size (an_header a) + total (an_sections a))) as [HL|HL].
    + destruct (c85_beginning (an_sections a) (h_total (an_header a) - h_size (an_header a)) ltac:(lia)) as (kept & [(rest & E) HB] & _).
      rewrite (c85_begun b a bs kept rest (h_total (an_header a) - h_size (an_header a)) HA HE ltac:(lia) E HB) in HR. apply Ok_inj in HR.
      assert (with_sections a kept = a) as HW by congruence. apply (f_equal an_sections) in HW. cbn in HW. now rewrite <- HW.
    + now rewrite (c85_too_large b a bs HA HE HL) in HR.
  - intro HB. rewrite (c85_begun b a bs (an_sections a) [] (h_total (an_header a) - h_size (an_header a)) HA HE ltac:(lia) ltac:(now rewrite app_nil_r) HB), L. now destruct a.
Qed.
Print Assumptions c85_whole.

(** A section is replaced by another, and the total size of the file follows: what is read back is the changed file, and
    the bytes before and after the section are the same, apart from the total size. *)
Definition with_total (h : header) (n : N) : header := {| h_kind := h_kind h; h_size := h_size h; h_total := n |}.
Definition exact (b : build) (a : anlz) : Prop := file_ok b a /\ h_total (an_header a) = h_size (an_header a) + total (an_sections a).
Definition replaced (a : anlz) (k : list section) (s' : section) (r : list section) : anlz :=
  {| an_header := with_total (an_header a) (h_size (an_header a) + total (k ++ s' :: r)); an_header_data := an_header_data a; an_sections := k ++ s' :: r |}.
Lemma exact_begun l : begun (total l) l.
Proof. split; [lia|]. intros k s ->. rewrite total_app, total_cons. pose proof (section_size_pos s). lia. Qed.
Theorem c85_replace : forall b a k s r s', exact b a -> an_sections a = k ++ s :: r -> section_ok b s' ->
  h_size (an_header a) + total (k ++ s' :: r) < 2 ^ 32 ->
  exists h h' before old new after,
    enc_anlz b a = Ok (h ++ before ++ old ++ after) /\ enc_anlz b (replaced a k s' r) = Ok (h' ++ before ++ new ++ after) /\
    len h = 12 /\ len h' = 12 /\ takeN 8 h = takeN 8 h' /\ (section_size s = section_size s' -> h = h') /\
    len before = len (an_header_data a) + total k /\ enc_section b s = Ok old /\ enc_section b s' = Ok new /\
    rd_anlz b (h' ++ before ++ new ++ after) 0 = Ok (replaced a k s' r, len (h' ++ before ++ new ++ after)).
Proof.
  intros b a k s r s' [HA HT] HS HO HL. pose proof HA as ((HK & HZ1 & HZ2) & HF & HD & HZ & HO'). rewrite HS in HO'. apply Forall_app in HO' as [OK OR].
  apply Forall_cons_iff in OR as [OS OR]. destruct (sections_total b k OK) as (x & EX). destruct (sections_total b r OR) as (z & EZ).
  destruct (enc_section_total b s OS) as (y & EY). destruct (enc_section_total b s' HO) as (y' & EY').
  assert (enc_all (enc_section b) (s :: r) = Ok (y ++ z)) as E1 by (cbn [enc_all]; rewrite EY, EZ; reflexivity).
  assert (enc_all (enc_section b) (s' :: r) = Ok (y' ++ z)) as E2 by (cbn [enc_all]; rewrite EY', EZ; reflexivity).
  pose proof (enc_all_app _ _ _ _ _ EX E1) as F1. pose proof (enc_all_app _ _ _ _ _ EX E2) as F2.
  assert (file_ok b (replaced a k s' r)) as HR.
  { split; [split; [easy|split; [easy|exact HL]]|]. split; [easy|]. split; [easy|]. split; [easy|]. cbn [an_sections replaced]. apply Forall_app. split; [easy|]. now constructor. }
  exists (enc_header (an_header a)), (enc_header (an_header (replaced a k s' r))), (an_header_data a ++ x), y, y', z.
  assert (enc_anlz b (replaced a k s' r) = Ok (enc_header (an_header (replaced a k s' r)) ++ (an_header_data a ++ x) ++ y' ++ z)) as ER.
  { unfold enc_anlz. cbn [an_sections replaced]. rewrite F2. cbn [res_bind an_header_data]. now rewrite <- app_assoc. }
  split; [unfold enc_anlz; rewrite HS, F1; cbn [res_bind]; now rewrite <- app_assoc|]. split; [easy|]. rewrite !len_enc_header. split; [easy|]. split; [easy|].
  split; [|split; [|split; [|split; [easy|split; [easy|]]]]].
  - unfold enc_header. cbn [an_header replaced with_total h_kind h_size h_total].
    assert (forall u v w w' : list N, len u = 4 -> len v = 4 -> takeN 8 (u ++ v ++ w) = takeN 8 (u ++ v ++ w')) as HT8.
    { intros u v w w' LU LV. rewrite !app_assoc. rewrite !takeN_app by (rewrite len_app; lia). reflexivity. }
    apply HT8; apply len_be_enc.
  - intro E. cbn [an_header replaced]. rewrite !total_app, !total_cons. rewrite HS, total_app, total_cons, E in HT. rewrite <- HT. now destruct (an_header a).
  - rewrite len_app, (sections_len b k x OK EX). lia.
  - apply c85_whole; [easy|easy| |].
    + cbn [an_header replaced with_total h_size h_total]. lia.
    + cbn [an_header replaced with_total h_size h_total an_sections]. replace (_ + _ - _) with (total (k ++ s' :: r)) by lia. apply exact_begun.
Qed.
Print Assumptions c85_replace.

(** If the sizes in the header of the section do not follow, the file cannot be read any more: paths, waveforms and song
    structures are compared with them. *)
Definition compared (c : content) : option N :=
  match c with CPath _ | CWave _ | CSong _ => counted_size c | _ => None end.
Theorem c85_stale : forall b s n buf pos bs, header_ok (se_header s) -> kind_fits (h_kind (se_header s)) (se_content s) -> content_ok b (se_content s) ->
  compared (se_content s) = Some n -> n < 2 ^ 32 -> h_size (se_header s) <= h_total (se_header s) -> h_size (se_header s) + n <> h_total (se_header s) ->
  enc_section b s = Ok bs -> has buf pos bs -> rd_section b buf pos = Err EAssertFail.
Proof.
  intros b s n buf pos bs HH HK HC HN HL HZ HX HE HB. unfold enc_section in HE. destruct (enc_content b (se_content s)) as [cb| |] eqn:EC; [|easy|easy].
  cbn [res_bind] in HE. apply Ok_inj in HE as <-. apply has_app in HB as [B1 B2]. rewrite len_enc_header in B2. unfold rd_section, bind.
  rewrite (header_wr _ _ _ HH B1). set (h := se_header s) in *. assert (content_size b h = Ok (h_total h - h_size h)) as HS by (apply content_size_ok; lia).
  assert (rd_content b h buf (pos + 12) = Err EAssertFail) as ->; [|reflexivity]. unfold rd_content.
  destruct (se_content s) as [u1 u2 beats|ty u mc cues|ty u cues|p|u d|f|so|hd d]; try easy; cbn [compared counted_size kind_fits content_ok enc_content] in *;
    apply (f_equal (fun o => match o with Some x => x | None => 0 end)) in HN; cbn beta iota in HN; subst n.
  - rewrite HK. rewrite path_size_ok in EC by lia. cbn [res_bind] in EC. apply Ok_inj in EC as <-. apply has_app in B2 as [B2 _]. unfold rd_path, bind.
    rewrite (rd_be4_has (2 * (len p + 1)) _ _ ltac:(lia) B2). unfold lift. rewrite HS. unfold guard. replace (_ =? _) with false by lia. reflexivity.
  - assert (forall w, w = wf_type f -> rd_wave b h w buf (pos + 12) = Err EAssertFail) as HW.
    { intros w ->. unfold enc_wave in EC. destruct (enc_all _ (wf_data f)) as [x| |]; [|easy|easy]. cbn [res_bind] in EC. apply Ok_inj in EC as <-.
      apply has_app in B2 as [B2 B3]. apply has_app in B3 as [B3 _]. rewrite len_mod32 in B3 by (destruct (wf_type f); cbn [column_size] in HL; lia). unfold rd_wave, bind.
      unfold rd_wave_count. destruct (wave_entry (wf_type f)) as [e|] eqn:EE.
      - assert (e = column_size (wf_type f) /\ 0 < e < 2 ^ 32) as [-> HE2] by (destruct (wf_type f); cbn in EE; inversion EE; now vm_compute). unfold bind.
        rewrite len_be_enc in B3. change (N.of_nat 4) with 4 in B3. rewrite (rd_be4_has (column_size (wf_type f)) _ _ ltac:(lia) B2). rewrite guard_ok by lia. rewrite (rd_be4_has (len (wf_data f)) _ _ ltac:(nia) B3). unfold lift, wmul.
        replace (_ <? 2 ^ 32) with true by lia. rewrite HS. unfold guard. replace (_ =? _) with false by lia. reflexivity.
      - assert (column_size (wf_type f) = 1) as E1 by (destruct (wf_type f); easy). rewrite E1, N.mul_1_l in *. rewrite (@len_nil N), N.add_0_r in B3. unfold bind.
        rewrite (rd_be4_has (len (wf_data f)) _ _ ltac:(lia) B3). unfold lift. rewrite HS. unfold guard. replace (_ =? _) with false by lia. reflexivity. }
    rewrite HK. destruct (wf_type f); cbn [wave_kind]; unfold bind; now rewrite (HW _ eq_refl).
  - rewrite HK. destruct HC as [HD [HM HKK]]. unfold enc_song in EC. rewrite (N.mod_small (len _)) in EC by easy. destruct (enc_encrypted _ _ _ _) as [x| |]; [|easy|easy].
    cbn [res_bind] in EC. apply Ok_inj in EC as <-. apply has_app in B2 as [B2 B3]. apply has_app in B3 as [B3 _]. rewrite len_be_enc in B3. unfold rd_song, bind.
    rewrite (rd_be4_has 24 _ _ ltac:(lia) B2). rewrite guard_ok by easy. change (N.of_nat 4) with 4 in B3. rewrite (rd_be_has 2 _ _ _ HM B3). unfold lift, wmul.
    replace (_ <? 2 ^ 32) with true by lia. rewrite HS. unfold guard. replace (_ =? _) with false by lia. reflexivity.
Qed.
Print Assumptions c85_stale.

(** Files that were read meet the hypotheses (extended cue lists: if the entries do, see C38). *)
Lemma read_sections_ok final buf : forall pos l p, bytes_ok buf -> len buf < 2 ^ 32 -> sections_at Debug final buf pos l p ->
  Forall (fun s => is_ecue_list (se_content s) = true -> content_ok Debug (se_content s)) l -> Forall (section_ok Debug) l.
Proof.
  intros pos l p HB HL HS. induction HS as [pos HF|pos s pos' l q HF HR HS IH]; intro HE; [constructor|].
  apply Forall_cons_iff in HE as [HE HE']. constructor; [|now apply IH]. apply section_rw in HR as (HO & HK & HA & HC); [|easy|easy].
  split; [easy|]. split; [easy|]. split; [destruct (is_ecue_list (se_content s)) eqn:E; [now apply HE|now apply HC]|].
  unfold sizes_agree, sizes_fit, same_u32 in *. destruct HA as [H1 H2]. split; [easy|]. destruct (se_content s); easy.
Qed.
Theorem c85_read : forall a buf p, bytes_ok buf -> len buf < 2 ^ 32 -> rd_anlz Debug buf 0 = Ok (a, p) ->
  Forall (fun s => is_ecue_list (se_content s) = true -> content_ok Debug (se_content s)) (an_sections a) -> file_ok Debug a.
Proof.
  intros a buf p HB HL HR HE. unfold rd_anlz in HR. apply bind_inv in HR as (h & q1 & A1 & HR). apply bind_inv in HR as (x & q2 & A2 & HR).
  apply guard_inv in A2 as [A2 <-]. apply bind_inv in HR as (n & q3 & A3 & HR). apply lift_inv in A3 as [A3 <-]. apply bind_inv in HR as (hd & q4 & A4 & HR).
  apply bind_inv in HR as (m & q5 & A5 & HR). apply lift_inv in A5 as [A5 <-]. apply bind_inv in HR as (ss & q6 & A6 & HR). apply ret_inv in HR as [<- <-].
  cbn [an_sections] in HE. apply header_rw in A1 as (HO & HH & ->); [|easy]. apply rd_bytes_inv in A4 as (LD & -> & HD).
  unfold parse_sections in A6. destruct (wadd Debug 64 (0 + 12 + n) m) as [final| |]; [|easy|easy].
  destruct (sections_loop (S (length buf)) Debug final buf (0 + 12 + n)) as [r|] eqn:EL; [|easy]. subst r. apply loop_sections in EL.
  split; [easy|]. split; [cbn [an_header]; now destruct (h_kind h)|]. cbn [an_header an_header_data an_sections]. split; [|split; [|now apply (read_sections_ok _ _ _ _ _ HB HL EL)]].
  - destruct HD as [->|HD]; [|destruct HD as (pre & post & -> & _); apply Forall_app in HB as [_ HB]; now apply Forall_app in HB as [HB _]]. apply len_0_nil in LD as ->. constructor.
  - unfold remaining_size, wsub in A3. destruct (12 <=? h_size h) eqn:E12; [|easy]. apply Ok_inj in A3. lia.
Qed.
Print Assumptions c85_read.

(** A file with the seven sections of C39; its path is replaced by a longer one. *)
Definition c85_path : section := {| se_header := {| h_kind := KPath; h_size := 16; h_total := 24 |}; se_content := CPath [47; 0x263A; 65] |}.
Example c85_example :
  exact Debug c39_anlz /\ section_ok Debug c85_path /\ map section_size c39_sections = [22; 80; 93; 40; 28; 56; 15] /\ section_size c85_path = 24 /\
  begun 334 c39_sections /\ begun 320 c39_sections /\ begun 319 (firstn 6 c39_sections) /\ begun 100 (firstn 2 c39_sections) /\
  match rd_anlz Debug (match enc_anlz Debug (replaced c39_anlz [] c85_path (tl c39_sections)) with Ok bs => bs | _ => [] end) 0 with
  | Ok (a, p) => p = 364 /\ h_total (an_header a) = 364 /\ map section_size (an_sections a) = [24; 80; 93; 40; 28; 56; 15]
  | _ => False
  end.
Proof.
  destruct c39_example as [(HH & HK & HD & HZ & HS & _) _].
  split; [split; [easy|reflexivity]|]. split.
  { split; [repeat split|]. split; [easy|]. split; [repeat constructor|split; [reflexivity|exact I]]. }
  split; [vm_compute; reflexivity|]. split; [reflexivity|].
  assert (forall n l, 0 < n -> (n <=? total l) && (total (removelast l) <? n) = true -> begun n l) as HB.
  { intros n l HN H. apply andb_true_iff in H as [H1 H2]. split; [lia|]. intros k s ->. rewrite removelast_last in H2. lia. }
  do 4 (split; [apply HB; vm_compute; reflexivity|]). vm_compute. repeat split.
Qed.

(** ** Findings: what programs write that change a list and nothing else *)
(** A file with two cue lists without cues, as it is written for a new track; a program adds a cue to the first.  The
    file can be read, without the second list. *)
Definition c85_list (ty : N) (cues : list cue) : section :=
  {| se_header := {| h_kind := KCueList; h_size := 24; h_total := 24 |}; se_content := CCueList (VNamed ty) 0 0 cues |}.
Definition c85_file (l : list section) : anlz :=
  {| an_header := {| h_kind := KFile; h_size := 28; h_total := 76 |}; an_header_data := repeat 0 16; an_sections := l |}.
Theorem c85_lost_refuted :
  exists a s r ty u mc c bs,
    exact Debug a /\ an_sections a = s :: r /\ r <> [] /\ se_content s = CCueList ty u mc [] /\
    let s' := {| se_header := se_header s; se_content := CCueList ty u mc [c] |} in
    section_ok Debug s' /\ enc_anlz Debug (with_sections a (s' :: r)) = Ok bs /\ rd_anlz Debug bs 0 = Ok (with_sections a [s'], len bs - 24).
Proof.
  exists (c85_file [c85_list 1 []; c85_list 0 []]), (c85_list 1 []), [c85_list 0 []], (VNamed 1), 0, 0, c39_cue.
  assert (header_ok {| h_kind := KCueList; h_size := 24; h_total := 24 |}) as HH by (repeat split).
  assert (section_ok Debug (c85_list 1 []) /\ section_ok Debug (c85_list 0 [])) as [S1 S0].
  { split; (split; [exact HH|]; split; [reflexivity|]; split; [|split; exact I]; split; [unfold u32_list_type; tauto|];
      split; [easy|]; split; [easy|]; split; [easy|constructor]). }
  assert (cue_ok c39_cue) as HC. { split; [repeat split|]. repeat constructor. }
  eexists. split; [split|].
  { split; [repeat split|]. split; [reflexivity|]. split; [repeat constructor|]. split; [reflexivity|]. constructor; [exact S1|]. constructor; [exact S0|constructor]. }
  { reflexivity. }
  split; [reflexivity|]. split; [easy|]. split; [reflexivity|]. cbv zeta. split.
  { split; [exact HH|]. split; [reflexivity|]. split; [|split; exact I]. split; [now right|]. split; [easy|]. split; [easy|]. split; [easy|]. constructor; [exact HC|constructor]. }
  split; [vm_compute; reflexivity|]. vm_compute. reflexivity.
Qed.
Print Assumptions c85_lost_refuted.
(** A beat is removed from a grid: the file cannot be read any more. *)
Definition c85_grid (beats : list (list fval)) : section :=
  {| se_header := {| h_kind := KBeatGrid; h_size := 24; h_total := 40 |}; se_content := CBeatGrid 0 0x800000 beats |}.
Theorem c85_unreadable_refuted :
  exists a s u1 u2 beats beat bs,
    exact Debug a /\ an_sections a = [s] /\ se_content s = CBeatGrid u1 u2 (beats ++ [beat]) /\
    let s' := {| se_header := se_header s; se_content := CBeatGrid u1 u2 beats |} in
    section_ok Debug s' /\ enc_anlz Debug (with_sections a [s']) = Ok bs /\ rd_anlz Debug bs 0 = Err EIo.
Proof.
  exists {| an_header := {| h_kind := KFile; h_size := 12; h_total := 52 |}; an_header_data := []; an_sections := [c85_grid [[VInt 1; VInt 12800; VInt 30]; [VInt 2; VInt 12800; VInt 500]]] |},
    (c85_grid [[VInt 1; VInt 12800; VInt 30]; [VInt 2; VInt 12800; VInt 500]]), 0, 0x800000, [[VInt 1; VInt 12800; VInt 30]], [VInt 2; VInt 12800; VInt 500].
  assert (forall l, len l < 2 ^ 32 -> Forall (plain_ok beat_fields) l -> section_ok Debug (c85_grid l)) as HG.
  { intros l HL HF. split; [repeat split|]. split; [reflexivity|]. split; [|split; exact I]. repeat split; easy. }
  eexists. split; [split|].
  { split; [repeat split|]. split; [reflexivity|]. split; [constructor|]. split; [reflexivity|]. constructor; [|constructor]. apply HG; [reflexivity|repeat constructor]. }
  { reflexivity. }
  split; [reflexivity|]. split; [reflexivity|]. cbv zeta. split; [apply HG; [reflexivity|repeat constructor]|].
  split; [vm_compute; reflexivity|]. vm_compute. reflexivity.
Qed.
Print Assumptions c85_unreadable_refuted.
