(** * Whole analysis files, and lists that are too long *)
From Coq Require Import NArith ZArith List Bool Lia.
From Coq Require Import ZifyBool ZifyNat ZifyN.
From Verif Require Import Base BaseFacts Utf UtfFacts Str Schema SchemaFacts Xor XorFacts Anlz AnlzFacts AnlzSpec AnlzCodec AnlzSong AnlzSections AnlzLoop.
Import ListNotations.
Open Scope N_scope.
Ltac Zify.zify_post_hook ::= Z.div_mod_to_equations.

(** ** Everything in range can be written *)
Lemma enc_plain_list b fs l : no_str fs = true -> Forall (plain_ok fs) l -> exists bs, enc_all (enc_fields b fs) l = Ok bs.
Proof.
  intros HS HP. apply (enc_all_total _ (plain_ok fs)); [|easy]. intros v HV. destruct (plain_size b fs v HS HV) as (x & E & _). eauto.
Qed.
Lemma enc_cue_total b c : cue_ok c -> exists bs, enc_cue b c = Ok bs /\ len bs = 56.
Proof.
  intros [_ HV]. unfold enc_cue. destruct (plain_size b cue_fields _ eq_refl HV) as (x & -> & L). cbn [res_bind]. eexists. split; [reflexivity|].
  rewrite len_app, len_enc_header, L. reflexivity.
Qed.
Lemma enc_ecue_total b c : ecue_ok c -> exists bs, enc_ecue b c = Ok bs /\ len bs = 68 + comment_size (ec_comment c) + len (ec_trailing c).
Proof.
  intros (_ & HV & HW & _ & _ & HC & _). unfold enc_ecue. destruct (plain_size b ecue_fields _ eq_refl HV) as (x & -> & LX). cbn [res_bind].
  rewrite enc_comment_ok by lia. cbn [res_bind]. destruct (plain_size b ecue_more_fields _ eq_refl HW) as (y & -> & LY). cbn [res_bind].
  eexists. split; [reflexivity|]. rewrite !len_app, len_enc_header, len_comment_bytes, LX, LY. change (fields_size ecue_fields) with 28.
  change (fields_size ecue_more_fields) with 24. lia.
Qed.
Lemma enc_content_total b h c : header_ok h -> content_ok b c -> sizes_fit h c -> exists bs, enc_content b c = Ok bs.
Proof.
  intros HH HC HZ. destruct c as [u1 u2 beats|ty u mc cues|ty u cues|p|u d|f|s|hd d]; cbn [content_ok enc_content] in *.
  - destruct HC as (_ & _ & _ & HC). destruct (enc_plain_list b beat_fields beats eq_refl HC) as (x & ->). cbn [res_bind]. eauto.
  - destruct HC as (HT & _ & _ & _ & HC). destruct (enc_all_total (enc_cue b) cue_ok cues) as (x & ->); [|easy|].
    { intros v HV. destruct (enc_cue_total b v HV) as (x & E & _). eauto. }
    destruct HT as [-> | ->]; cbn; eauto.
  - destruct HC as (HT & _ & _ & HC). destruct (enc_all_total (enc_ecue b) ecue_ok cues) as (x & ->); [|easy|].
    { intros v HV. destruct (enc_ecue_total b v HV) as (x & E & _). eauto. }
    destruct HT as [-> | ->]; cbn; eauto.
  - destruct HZ as [HZ _]. cbn [counted_size] in HZ. destruct HH as (_ & _ & HH). rewrite path_size_ok by lia. cbn [res_bind]. eauto.
  - eauto.
  - destruct HC as [_ HC]. unfold enc_wave. destruct (enc_plain_list b (wave_fields (wf_type f)) (wf_data f)) as (x & ->); [now destruct (wf_type f)|easy|]. cbn [res_bind]. eauto.
  - destruct HC as [HD [HN HK]]. unfold enc_song, enc_encrypted. destruct (song_data_enc b _ HD) as (x & E & _). rewrite (N.mod_small (len _)) by easy. rewrite E.
    destruct (so_encrypted s); cbn [res_bind]; [|eauto]. rewrite get_key_19 by (apply key_fits_19; now destruct b). cbn [res_bind]. eauto.
  - eauto.
Qed.
Lemma enc_section_total b s : section_ok b s -> exists bs, enc_section b s = Ok bs.
Proof.
  intros (HH & _ & HC & HZ). unfold enc_section. destruct (enc_content_total b _ _ HH HC HZ) as (x & ->). cbn [res_bind]. eauto.
Qed.

(** ** Files *)
(** The sizes of the file header are those of the header data and of the sections. *)
Definition anlz_ok (b : build) (a : anlz) : Prop :=
  header_ok (an_header a) /\ h_kind (an_header a) = KFile /\ bytes_ok (an_header_data a) /\
  h_size (an_header a) = 12 + len (an_header_data a) /\ Forall (section_ok b) (an_sections a) /\
  exists bs, enc_all (enc_section b) (an_sections a) = Ok bs /\ h_total (an_header a) = h_size (an_header a) + len bs.
Lemma anlz_wr b a bs buf pos : anlz_ok b a -> enc_anlz b a = Ok bs -> has buf pos bs -> pos + len bs < 2 ^ 64 -> rd_anlz b buf pos = Ok (a, pos + len bs).
Proof.
  intros (HH & HK & HD & HZ & HS & ss & ES & HT) HE HB HL. unfold enc_anlz in HE. rewrite ES in HE. cbn [res_bind] in HE. apply Ok_inj in HE as <-.
  rewrite !len_app, len_enc_header in *. apply has_app in HB as [B1 HB]. apply has_app in HB as [B2 B3]. rewrite len_enc_header in *.
  unfold rd_anlz, bind. rewrite (header_wr _ _ _ HH B1). rewrite HK. cbn [is_file]. rewrite guard_ok by easy. unfold lift, remaining_size, wsub.
  rewrite HZ. replace (12 <=? 12 + len (an_header_data a)) with true by lia. replace (12 + len (an_header_data a) - 12) with (len (an_header_data a)) by lia.
  rewrite (rd_bytes_has _ _ _ B2). rewrite (content_size_ok b _ (len ss)) by lia.
  unfold parse_sections, wadd. replace (pos + 12 + len (an_header_data a) + len ss <? 2 ^ 64) with true by lia.
  pose proof (enc_sections_at b _ _ _ _ HS ES B3) as HA.
  assert (sections_loop (S (length buf)) b (pos + 12 + len (an_header_data a) + len ss) buf (pos + 12 + len (an_header_data a)) =
    Some (Ok (an_sections a, pos + 12 + len (an_header_data a) + len ss))) as EL.
  { apply (loop_fuel _ _ _ (S (length (an_sections a)))).
    - apply sections_loop_at; [easy|lia].
    - destruct (loop_bound b _ buf (S (length (an_sections a))) _ _ _ (sections_loop_at _ _ _ _ _ _ HA _ (Nat.lt_succ_diag_r _))) as (LB & L2 & _).
      apply has_len in B3. unfold len in *. lia. }
  rewrite EL. unfold ret. destruct a as [h0 d0 s0]. do 2 f_equal. cbn [an_header_data] in *. lia.
Qed.
Lemma sections_rw b final buf pos l p : bytes_ok buf -> len buf < 2 ^ 32 -> pos <= len buf -> sections_at b final buf pos l p ->
  Forall (fun s => is_ecue_list (se_content s) = false) l -> exists bs, enc_all (enc_section b) l = Ok bs /\ has buf pos bs /\ p = pos + len bs.
Proof.
  intros HB HL HP HS. induction HS as [pos HF|pos s pos' l q HF HR HS IH]; intro HE.
  - exists []. split; [easy|]. split; [now apply has_nil|]. rewrite (@len_nil N). lia.
  - apply Forall_cons_iff in HE as [HE HEL]. pose proof (section_adv _ _ _ _ _ HR) as [_ HA].
    apply section_rw in HR as (_ & _ & _ & HR); [|easy|easy]. destruct (HR HE) as (_ & x & EX & HX & ->).
    destruct IH as (y & EY & HY & ->); [easy|easy|]. exists (x ++ y). cbn [enc_all]. rewrite EX. cbn [res_bind]. rewrite EY. split; [easy|].
    split; [now apply has_app|]. rewrite len_app. lia.
Qed.
Lemma anlz_rw b a buf p : bytes_ok buf -> len buf < 2 ^ 32 -> rd_anlz b buf 0 = Ok (a, p) ->
  Forall (fun s => is_ecue_list (se_content s) = false) (an_sections a) ->
  enc_anlz b a = Ok (takeN p buf).
Proof.
  intros HB HL HR HE. unfold rd_anlz in HR. apply bind_inv in HR as (h & q1 & A1 & HR). apply bind_inv in HR as (x & q2 & A2 & HR).
  apply guard_inv in A2 as [A2 <-]. apply bind_inv in HR as (n & q3 & A3 & HR). apply lift_inv in A3 as [A3 <-]. apply bind_inv in HR as (hd & q4 & A4 & HR).
  apply bind_inv in HR as (m & q5 & A5 & HR). apply lift_inv in A5 as [A5 <-]. apply bind_inv in HR as (ss & q6 & A6 & HR). apply ret_inv in HR as [<- <-].
  cbn [an_sections] in HE. apply header_rw in A1 as (HO & HH & ->); [|easy]. pose proof (has_len _ _ _ HH) as L1. rewrite len_enc_header in L1.
  apply rd_bytes_inv in A4 as (LD & -> & HD).
  assert (has buf (0 + 12) hd) as HD'. { destruct HD as [HD|HD]; [|easy]. rewrite HD in LD. apply len_0_nil in LD. subst hd. now apply has_nil. }
  pose proof (has_len _ _ _ HD') as L2. unfold parse_sections in A6. destruct (wadd b 64 (0 + 12 + n) m) as [final| |]; [|easy|easy].
  destruct (sections_loop (S (length buf)) b final buf (0 + 12 + n)) as [r|] eqn:EL; [|easy]. subst r. apply loop_sections in EL.
  apply sections_rw in EL as (bs & EB & HBS & ->); [|easy|easy|lia|easy]. unfold enc_anlz. cbn [an_header an_header_data an_sections]. rewrite EB. cbn [res_bind]. f_equal.
  assert (has buf 0 (enc_header h ++ hd ++ bs)) as HA.
  { apply has_app. split; [easy|]. rewrite len_enc_header. apply has_app. split; [easy|]. now rewrite LD. }
  pose proof (has_len _ _ _ HA) as LA. replace (0 + 12 + n + len bs) with (len (enc_header h ++ hd ++ bs)) by (rewrite !len_app, len_enc_header, LD; lia).
  destruct HA as (pre & post & -> & EP). apply len_0_nil in EP. subst pre. cbn [app]. now rewrite takeN_app.
Qed.

(** ** Lists that are too long for the field with their number *)
Lemma enc_all_take {A} (f : A -> res (list N)) : forall n l bs, enc_all f l = Ok bs -> exists x y, enc_all f (firstn n l) = Ok x /\ bs = x ++ y.
Proof.
  induction n as [|n IH]; intros l bs HE; [exists [], bs; now split|]. destruct l as [|v l]; [exists [], bs; now split|]. cbn [firstn enc_all] in *.
  destruct (f v) as [a| |]; [|easy|easy]. cbn [res_bind] in *. destruct (enc_all f l) as [c| |] eqn:EC; [|easy|easy]. apply Ok_inj in HE as <-.
  destruct (IH _ _ EC) as (x & y & -> & ->). exists (a ++ x), y. split; [easy|]. now rewrite app_assoc.
Qed.
Lemma rd_count_prefix {A} (enc : A -> res (list N)) (dec : parser A) (P : A -> Prop) buf :
  (forall v pos bs, P v -> enc v = Ok bs -> has buf pos bs -> dec buf pos = Ok (v, pos + len bs)) ->
  forall l pos bs n, Forall P l -> enc_all enc l = Ok bs -> has buf pos bs -> n <= len l ->
    exists p, rd_count (N.to_nat n) dec buf pos = Ok (takeN n l, p).
Proof.
  intros H l pos bs n HP HE HH HN. destruct (enc_all_take enc (N.to_nat n) l bs HE) as (x & y & EX & ->). apply has_app in HH as [HX _].
  exists (pos + len x). unfold takeN. replace (N.to_nat n) with (length (firstn (N.to_nat n) l)) at 1 by (rewrite firstn_length; unfold len in HN; lia).
  eapply rd_count_res_has; try eassumption. rewrite Forall_forall in *. intros v HV. apply HP. rewrite <- (firstn_skipn (N.to_nat n) l). apply in_or_app. now left.
Qed.
Lemma cue_list_prefix b h ty u mc cues bs buf pos :
  h_kind h = KCueList -> u32_list_type ty -> u < 2 ^ 16 -> mc < 2 ^ 32 -> Forall cue_ok cues ->
  enc_content b (CCueList ty u mc cues) = Ok bs -> has buf pos bs ->
  exists p, rd_content b h buf pos = Ok (CCueList ty u mc (takeN (len cues mod 2 ^ 16) cues), p).
Proof.
  intros HK HT HU HM HC HE HB. cbn [enc_content] in HE. destruct (enc_field b cue_list_type ty) as [t| |] eqn:ET; [|easy|easy]. cbn [res_bind] in HE.
  destruct (enc_all (enc_cue b) cues) as [cs| |] eqn:EC; [|easy|easy]. cbn [res_bind] in HE. apply Ok_inj in HE as <-.
  apply has_app in HB as [B1 HB]. destruct (list_type_wr b ty t buf pos HT ET B1) as [RT LT]. rewrite LT in HB. apply has_app in HB as [B2 HB]. apply has_app in HB as [B3 HB]. apply has_app in HB as [B4 B5].
  rewrite !len_be_enc in *. change (N.of_nat 2) with 2 in *. change (N.of_nat 4) with 4 in *. assert (len cues mod 2 ^ 16 < 2 ^ 16) as LM by now apply N.mod_lt.
  unfold rd_content. rewrite HK. unfold rd_cue_list, bind. rewrite RT. rewrite (rd_be2_has u _ _ HU B2).
  rewrite (rd_be2_has _ _ _ LM B3). rewrite (rd_be4_has mc _ _ HM B4).
  destruct (rd_count_prefix (enc_cue b) rd_cue cue_ok buf) with (l := cues) (n := len cues mod 2 ^ 16) (2 := HC) (3 := EC) (4 := B5) as (p & ->); [|apply N.mod_le; easy|].
  - intros v q vb V1 V2 V3. now apply (cue_wr b).
  - unfold ret. eauto.
Qed.
Lemma ecue_list_prefix b h ty cues bs buf pos :
  h_kind h = KExtendedCueList -> u32_list_type ty -> Forall ecue_ok cues ->
  enc_content b (CExtendedCueList ty 0 cues) = Ok bs -> has buf pos bs ->
  exists p, rd_content b h buf pos = Ok (CExtendedCueList ty 0 (takeN (len cues mod 2 ^ 16) cues), p).
Proof.
  intros HK HT HC HE HB. cbn [enc_content] in HE. destruct (enc_field b cue_list_type ty) as [t| |] eqn:ET; [|easy|easy]. cbn [res_bind] in HE.
  destruct (enc_all (enc_ecue b) cues) as [cs| |] eqn:EC; [|easy|easy]. cbn [res_bind] in HE. apply Ok_inj in HE as <-.
  apply has_app in HB as [B1 HB]. destruct (list_type_wr b ty t buf pos HT ET B1) as [RT LT]. rewrite LT in HB. apply has_app in HB as [B2 HB]. apply has_app in HB as [B3 B5].
  rewrite !len_be_enc in *. change (N.of_nat 2) with 2 in *. assert (len cues mod 2 ^ 16 < 2 ^ 16) as LM by now apply N.mod_lt.
  unfold rd_content. rewrite HK. unfold rd_ecue_list, bind. rewrite RT. rewrite (rd_be2_has _ _ _ LM B2).
  rewrite (rd_be2_has 0 _ _ eq_refl B3). rewrite guard_ok by easy.
  destruct (rd_count_prefix (enc_ecue b) (rd_ecue b) ecue_ok buf) with (l := cues) (n := len cues mod 2 ^ 16) (2 := HC) (3 := EC) (4 := B5) as (p & ->); [|apply N.mod_le; easy|].
  - intros v q vb V1 V2 V3. now apply (ecue_wr b).
  - unfold ret. eauto.
Qed.
Lemma take_mod_iff {A} (l : list A) : takeN (len l mod 2 ^ 16) l = l <-> len l < 2 ^ 16.
Proof.
  split; intro H.
  - apply (f_equal len) in H. rewrite len_takeN in H. assert (len l mod 2 ^ 16 < 2 ^ 16) by now apply N.mod_lt. lia.
  - rewrite N.mod_small by easy. apply takeN_all. lia.
Qed.
(** Numbers of phrases that are read have 16 bits. *)
Lemma song_read_length b h s buf pos p : bytes_ok buf -> rd_song b h buf pos = Ok (s, p) -> len (sd_phrases (so_data s)) < 2 ^ 16.
Proof.
  intros HB HR. unfold rd_song in HR. apply bind_inv in HR as (eb & q1 & A1 & HR). apply bind_inv in HR as (x & q2 & A2 & HR).
  apply guard_inv in A2 as [G <-]. apply bind_inv in HR as (n & q3 & A3 & HR). apply bind_inv in HR as (m & q4 & A4 & HR). apply bind_inv in HR as (cs & q5 & A5 & HR).
  apply bind_inv in HR as (y & q6 & A6 & HR). apply rd_be2_inv in A3 as (N1 & _ & ->); [|easy].
  apply bind_inv in HR as (p0 & q7 & A7 & HR). apply bind_inv in HR as (raw & q8 & A8 & HR). apply bind_inv in HR as (z & q9 & A9 & HR).
  apply bind_inv in HR as (e & q10 & A10 & HR). apply bind_inv in HR as (d & q11 & A11 & HR). apply ret_inv in HR as [<- <-]. cbn [so_data].
  assert (forall bf q q', rd_song_data n bf q = Ok (d, q') -> len (sd_phrases d) = n) as HN.
  { intros bf q q' H. unfold rd_song_data in H. apply bind_inv in H as (vs & r1 & B1 & H). apply bind_inv in H as (ps & r2 & B2 & H). apply ret_inv in H as [<- _].
    cbn [sd_phrases]. apply rd_count_length in B2. unfold len. rewrite B2. lia. }
  unfold rd_encrypted in A11. destruct e; [|now rewrite (HN _ _ _ A11)]. apply bind_inv in A11 as (key & r & _ & A11). now rewrite (HN _ _ _ A11).
Qed.
