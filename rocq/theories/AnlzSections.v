(** * Sections and files *)
From Coq Require Import NArith ZArith List Bool Lia.
From Coq Require Import ZifyBool ZifyNat ZifyN.
From Verif Require Import Base BaseFacts Utf UtfFacts Str Schema SchemaFacts Xor XorFacts Anlz AnlzFacts AnlzSpec AnlzCodec AnlzSong.
Import ListNotations.
Open Scope N_scope.
Ltac Zify.zify_post_hook ::= Z.div_mod_to_equations.

(** ** Paths *)
Lemma until0_be2_has buf : forall us fuel pos,
  Forall (fun u => 0 < u < 65536) us -> has buf pos (flat_map (be_enc 2) us ++ [0; 0]) -> (length us < fuel)%nat ->
  rd_until0 fuel (rd_be 2) buf pos = Ok (us, pos + 2 * len us + 2).
Proof.
  induction us as [|u us IH]; intros fuel pos HU HH HF; (destruct fuel as [|fuel]; [cbn in HF; lia|]); cbn [rd_until0]; unfold bind.
  - change (flat_map (be_enc 2) [] ++ [0; 0]) with (be_enc 2 0) in HH. rewrite (rd_be2_has 0 _ _ eq_refl HH). cbn [N.eqb]. unfold ret. rewrite (@len_nil N).
    do 2 f_equal. lia.
  - inversion HU as [|? ? U1 U2]; subst. cbn [flat_map] in HH. rewrite <- app_assoc in HH. apply has_app in HH as [H1 H2]. rewrite len_be_enc in H2.
    rewrite (rd_be2_has u _ _ ltac:(lia) H1). replace (u =? 0) with false by lia. rewrite IH; [|easy|exact H2|cbn in HF; lia].
    unfold ret. rewrite len_cons. do 2 f_equal. lia.
Qed.
Lemma until0_be2_inv buf : bytes_ok buf -> forall fuel us pos pos',
  rd_until0 fuel (rd_be 2) buf pos = Ok (us, pos') ->
  Forall (fun u => 0 < u < 65536) us /\ has buf pos (flat_map (be_enc 2) us ++ [0; 0]) /\ pos' = pos + 2 * len us + 2.
Proof.
  intro HB. induction fuel as [|fuel IH]; intros us pos pos' HR; [easy|]. cbn [rd_until0] in HR. apply bind_inv in HR as (u & p1 & H1 & HR).
  apply rd_be2_inv in H1 as (U1 & U2 & ->); [|easy]. destruct (u =? 0) eqn:EU.
  - apply ret_inv in HR as [<- <-]. assert (u = 0) as -> by lia. split; [constructor|]. split; [exact U2|]. rewrite (@len_nil N). lia.
  - apply bind_inv in HR as (r & p2 & H2 & HR). apply ret_inv in HR as [<- <-]. apply IH in H2 as (A1 & A2 & ->).
    split; [constructor; [lia|easy]|]. split; [|rewrite len_cons; lia]. cbn [flat_map]. rewrite <- app_assoc. apply has_app. rewrite len_be_enc. split; [easy|exact A2].
Qed.
Lemma until0_be2_no_panic buf : forall fuel pos, rd_until0 fuel (rd_be 2) buf pos <> Panic.
Proof.
  induction fuel as [|f IH]; intro pos; cbn [rd_until0]; [easy|]. unfold bind. pose proof (rd_be_no_panic 2 buf pos) as H.
  destruct (rd_be 2 buf pos) as [[v p]| |]; [|easy|easy]. destruct (v =? 0); [easy|]. specialize (IH p).
  destruct (rd_until0 f (rd_be 2) buf p) as [[r q]| |]; easy.
Qed.
Lemma until0_be2_fuel buf : forall fuel1 fuel2 pos,
  (N.to_nat (len buf - pos) < fuel1)%nat -> (N.to_nat (len buf - pos) < fuel2)%nat ->
  rd_until0 fuel1 (rd_be 2) buf pos = rd_until0 fuel2 (rd_be 2) buf pos.
Proof.
  induction fuel1 as [|f1 IH]; intros [|f2] pos L1 L2; try lia. cbn [rd_until0]. unfold bind.
  destruct (rd_be 2 buf pos) as [[v p]| |] eqn:E; [|easy|easy]. destruct (v =? 0); [easy|].
  assert (pos + 2 <= len buf /\ p = pos + 2) as [HL ->].
  { unfold rd_be in E. apply bind_inv in E as (bs & q & E & R). apply ret_inv in R as [_ ->]. unfold rd_bytes in E. cbn [N.of_nat N.eqb Pos.of_succ_nat Pos.succ] in E.
    destruct (pos + 2 <=? len buf) eqn:EL; [|easy]. split; [lia|congruence]. }
  rewrite (IH f2) by lia. easy.
Qed.
Lemma path_size_ok b p : 2 * (len p + 1) < 2 ^ 32 -> path_size b p = Ok (2 * (len p + 1)).
Proof.
  intro H. unfold path_size. rewrite (N.mod_small (len p)) by lia. unfold wadd. replace (len p + 1 <? 2 ^ 32) with true by lia. cbn [res_bind].
  unfold wmul. replace ((len p + 1) * 2 <? 2 ^ 32) with true by lia. f_equal. lia.
Qed.
Lemma path_wr b h p buf pos bs :
  Forall (fun u => 0 < u < 65536) p -> header_ok h -> h_size h + 2 * (len p + 1) = h_total h ->
  enc_content b (CPath p) = Ok bs -> has buf pos bs -> rd_path b h buf pos = Ok (CPath p, pos + len bs).
Proof.
  intros HP (_ & _ & HT) HZ HE HB. cbn [enc_content] in HE. rewrite path_size_ok in HE by lia. cbn [res_bind] in HE. apply Ok_inj in HE as <-.
  apply has_app in HB as [B1 B2]. rewrite len_be_enc in B2. change (N.of_nat 4) with 4 in B2. unfold rd_path, bind.
  rewrite (rd_be4_has (2 * (len p + 1)) _ _ ltac:(lia) B1). unfold lift. rewrite (content_size_ok b h _ HZ). rewrite guard_ok by lia.
  unfold rd_nullwide. rewrite (until0_be2_has buf p) by (try easy; apply has_len in B2; rewrite len_app, len_units in B2; unfold len in B2; lia).
  rewrite guard_ok by lia. rewrite path_size_ok by lia. rewrite guard_ok by lia. unfold ret. rewrite !len_app, len_be_enc, len_units, !len_cons, (@len_nil N).
  do 2 f_equal. cbn [N.of_nat]. lia.
Qed.
Lemma path_rw b h c buf pos pos' :
  bytes_ok buf -> header_ok h -> rd_path b h buf pos = Ok (c, pos') ->
  exists p, c = CPath p /\ Forall (fun u => 0 < u < 65536) p /\ path_size b p = content_size b h /\ (exists n, path_size b p = Ok n) /\
    exists bs, enc_content b c = Ok bs /\ has buf pos bs /\ pos' = pos + len bs.
Proof.
  intros HB HH HR. unfold rd_path in HR. apply bind_inv in HR as (n & q1 & A1 & HR). apply bind_inv in HR as (cs & q2 & A2 & HR). apply bind_inv in HR as (x & q3 & A3 & HR).
  apply bind_inv in HR as (p & q4 & A4 & HR). apply bind_inv in HR as (cs2 & q5 & A5 & HR). apply bind_inv in HR as (y & q6 & A6 & HR).
  apply bind_inv in HR as (m & q7 & A7 & HR). apply bind_inv in HR as (z & q8 & A8 & HR). apply ret_inv in HR as [<- <-].
  apply lift_inv in A2 as [A2 <-]. apply guard_inv in A3 as [G1 <-]. apply lift_inv in A5 as [A5 <-]. apply guard_inv in A6 as [G2 <-].
  apply lift_inv in A7 as [A7 <-]. apply guard_inv in A8 as [G3 <-]. apply rd_be4_inv in A1 as (N1 & N2 & ->); [|easy].
  unfold rd_nullwide in A4. apply until0_be2_inv in A4 as (P1 & P2 & ->); [|easy]. exists p. split; [easy|]. split; [easy|].
  assert (m = n) as -> by lia. split; [rewrite A7, A2; f_equal; lia|]. split; [eauto|]. cbn [enc_content]. rewrite A7. cbn [res_bind].
  eexists. split; [reflexivity|]. split; [apply has_app; split; [easy|]; rewrite len_be_enc; exact P2|].
  rewrite !len_app, len_be_enc, len_units, !len_cons, (@len_nil N). cbn [N.of_nat]. lia.
Qed.

(** ** Contents *)
Lemma list_type_wr b ty bs buf pos : u32_list_type ty -> enc_field b cue_list_type ty = Ok bs -> has buf pos bs ->
  rd_field (fail EIo) cue_list_type buf pos = Ok (ty, pos + 4) /\ len bs = 4.
Proof.
  intros HT HE HB. assert (exists c, ty = VNamed c /\ c < 2 ^ 32 /\ mem c [0; 1] = true) as (c & -> & HC & HM) by (destruct HT as [-> | ->]; eexists; (split; [reflexivity|]); split; reflexivity).
  cbn [enc_field cue_list_type int_enc] in HE. apply Ok_inj in HE as <-. cbn [rd_field cue_list_type rd_int]. unfold bind. rewrite (rd_be4_has c _ _ HC HB).
  rewrite HM. split; [reflexivity|apply len_be_enc].
Qed.
Lemma list_type_rw b ty buf pos pos' : bytes_ok buf -> rd_field (fail EIo) cue_list_type buf pos = Ok (ty, pos') ->
  u32_list_type ty /\ exists bs, enc_field b cue_list_type ty = Ok bs /\ has buf pos bs /\ pos' = pos + len bs /\ len bs = 4.
Proof.
  intros HB HR. cbn [rd_field cue_list_type rd_int] in HR. apply bind_inv in HR as (c & q1 & A1 & HR). apply bind_inv in HR as (x & q2 & A2 & HR).
  apply guard_inv in A2 as [G <-]. apply ret_inv in HR as [<- <-]. apply rd_be4_inv in A1 as (C1 & C2 & ->); [|easy]. apply mem_in in G. cbn [In] in G.
  split; [unfold u32_list_type; destruct G as [<-|[<-|[]]]; auto|]. exists (be_enc 4 c). cbn [enc_field cue_list_type int_enc]. rewrite len_be_enc. auto.
Qed.
Lemma rd_bytes_has_eq bs n buf pos : has buf pos bs -> len bs = n -> rd_bytes n buf pos = Ok (bs, pos + n).
Proof. intros H <-. now apply rd_bytes_has. Qed.

Lemma content_wr b h c buf pos bs :
  header_ok h -> kind_fits (h_kind h) c -> content_ok b c -> sizes_fit h c -> enc_content b c = Ok bs -> has buf pos bs ->
  rd_content b h buf pos = Ok (c, pos + len bs).
Proof.
  intros HH HK HC [HS1 HS2] HE HB. unfold rd_content. destruct c as [u1 u2 beats|ty u mc cues|ty u cues|p|u d|f|s|hd d]; cbn [kind_fits content_ok counted_size] in *.
  - rewrite HK. destruct HC as (U1 & U2 & LB & PB). cbn [enc_content] in HE. destruct (enc_all _ beats) as [bb| |] eqn:EB; [|easy|easy].
    cbn [res_bind] in HE. apply Ok_inj in HE as <-. rewrite (N.mod_small (len beats)) in * by easy. apply has_app in HB as [B1 HB]. apply has_app in HB as [B2 HB].
    apply has_app in HB as [B3 B4]. rewrite !len_be_enc in *. change (N.of_nat 4) with 4 in *. unfold rd_beat_grid, bind. rewrite (rd_be4_has u1 _ _ U1 B1), (rd_be4_has u2 _ _ U2 B2), (rd_be4_has _ _ _ LB B3).
    unfold len at 1. rewrite Nat2N.id. rewrite (rd_count_res_has (enc_fields b beat_fields) _ (plain_ok beat_fields) buf) with (bs := bb); try easy.
    + unfold ret. rewrite !len_app, !len_be_enc. do 2 f_equal. cbn [N.of_nat]. lia.
    + intros v q vb V1 V2 V3. now apply (plain_wr b beat_fields v buf q vb).
  - rewrite HK. destruct HC as (TO & UO & MO & LC & PC). cbn [enc_content] in HE. destruct (enc_field b cue_list_type ty) as [tb| |] eqn:ET; [|easy|easy]. cbn [res_bind] in HE.
    destruct (enc_all (enc_cue b) cues) as [cb| |] eqn:EC; [|easy|easy]. cbn [res_bind] in HE. apply Ok_inj in HE as <-. rewrite (N.mod_small (len cues)) in * by easy.
    apply has_app in HB as [B1 HB]. destruct (list_type_wr b ty tb buf pos TO ET B1) as [RT LT]. rewrite LT in HB.
    apply has_app in HB as [B2 HB]. apply has_app in HB as [B3 HB]. apply has_app in HB as [B4 B5]. rewrite !len_be_enc in *. change (N.of_nat 4) with 4 in *. change (N.of_nat 2) with 2 in *.
    unfold rd_cue_list, bind. rewrite RT, (rd_be2_has u _ _ UO B2), (rd_be2_has _ _ _ LC B3), (rd_be4_has mc _ _ MO B4). unfold len at 1. rewrite Nat2N.id.
    rewrite (rd_count_res_has (enc_cue b) _ cue_ok buf) with (bs := cb); try easy.
    + unfold ret. rewrite !len_app, !len_be_enc, LT. do 2 f_equal. cbn [N.of_nat]. lia.
    + intros v q vb V1 V2 V3. now apply (cue_wr b v buf q vb).
  - rewrite HK. destruct HC as (TO & -> & LC & PC). cbn [enc_content] in HE. destruct (enc_field b cue_list_type ty) as [tb| |] eqn:ET; [|easy|easy]. cbn [res_bind] in HE.
    destruct (enc_all (enc_ecue b) cues) as [cb| |] eqn:EC; [|easy|easy]. cbn [res_bind] in HE. apply Ok_inj in HE as <-. rewrite (N.mod_small (len cues)) in * by easy.
    apply has_app in HB as [B1 HB]. destruct (list_type_wr b ty tb buf pos TO ET B1) as [RT LT]. rewrite LT in HB.
    apply has_app in HB as [B2 HB]. apply has_app in HB as [B3 B4]. rewrite !len_be_enc in *. change (N.of_nat 2) with 2 in *.
    unfold rd_ecue_list, bind. rewrite RT, (rd_be2_has _ _ _ LC B2), (rd_be2_has 0 _ _ eq_refl B3). rewrite guard_ok by easy. unfold len at 1. rewrite Nat2N.id.
    rewrite (rd_count_res_has (enc_ecue b) _ ecue_ok buf) with (bs := cb); try easy.
    + unfold ret. rewrite !len_app, !len_be_enc, LT. do 2 f_equal. cbn [N.of_nat]. lia.
    + intros v q vb V1 V2 V3. now apply (ecue_wr b v buf q vb).
  - rewrite HK. now apply path_wr.
  - rewrite HK. destruct HC as [UO BO]. cbn [enc_content] in HE. apply Ok_inj in HE as <-. apply has_app in HB as [B1 B2]. rewrite len_be_enc in B2. change (N.of_nat 4) with 4 in *.
    unfold rd_vbr, bind. rewrite (rd_be4_has u _ _ UO B1). unfold lift. rewrite (content_size_ok b h _ HS1). rewrite (rd_bytes_has _ _ _ B2). unfold ret. rewrite len_app, len_be_enc.
    do 2 f_equal. cbn [N.of_nat]. lia.
  - rewrite HK. cbn [enc_content] in HE. pose proof (wave_wr b h f buf pos bs HC HH HS1 HE HB) as HW. destruct (wf_type f); cbn [wave_kind]; unfold bind; now rewrite HW.
  - rewrite HK. destruct HC as [DO SF]. cbn [enc_content] in HE. unfold bind. now rewrite (song_wr b h s buf pos bs DO SF HS1 HE HB).
  - destruct HK as (kc & ->). cbn [enc_content] in HE. apply Ok_inj in HE as <-. apply has_app in HB as [B1 B2]. unfold rd_unknown, bind, lift, remaining_size, wsub.
    replace (12 <=? h_size h) with true by lia. rewrite (rd_bytes_has_eq hd _ _ _ B1) by lia. rewrite (content_size_ok b h _ HS1).
    replace (pos + (h_size h - 12)) with (pos + len hd) by lia. rewrite (rd_bytes_has _ _ _ B2). unfold ret. rewrite len_app. do 2 f_equal. lia.
Qed.
Lemma section_wr b s buf pos bs : section_ok b s -> enc_section b s = Ok bs -> has buf pos bs -> rd_section b buf pos = Ok (s, pos + len bs).
Proof.
  intros (HH & HK & HC & HS) HE HB. unfold enc_section in HE. destruct (enc_content b (se_content s)) as [cb| |] eqn:EC; [|easy|easy].
  cbn [res_bind] in HE. apply Ok_inj in HE as <-. apply has_app in HB as [B1 B2]. rewrite len_enc_header in B2. unfold rd_section, bind. rewrite (header_wr _ _ _ HH B1).
  rewrite (content_wr b _ _ buf (pos + 12) cb HH HK HC HS EC B2). unfold ret. rewrite len_app, len_enc_header. destruct s. do 2 f_equal. lia.
Qed.

(** ** Writing back what was read *)
Lemma content_size_agree b h n m : header_ok h -> content_size b h = Ok m -> same_u32 b n m -> same_u32 b (h_size h + n) (h_total h).
Proof.
  intros (_ & HS & HT) HC HM. apply content_size_inv in HC as (LM & HC); [|easy|easy]. destruct b; cbn [same_u32] in *; [lia|].
  rewrite <- HM in HC. now rewrite N.add_mod_idemp_r in HC by easy.
Qed.
Lemma content_rw b h c buf pos pos' :
  bytes_ok buf -> len buf < 2 ^ 32 -> header_ok h -> pos <= len buf -> rd_content b h buf pos = Ok (c, pos') ->
  kind_fits (h_kind h) c /\ sizes_agree b h c /\
  (is_ecue_list c = false -> content_ok b c /\ exists bs, enc_content b c = Ok bs /\ has buf pos bs /\ pos' = pos + len bs).
Proof.
  intros HB HL HH HP HR. unfold rd_content in HR.
  assert (forall w, (let* f <- rd_wave b h w; ret (CWave f)) buf pos = Ok (c, pos') -> h_kind h = wave_kind w ->
    kind_fits (h_kind h) c /\ sizes_agree b h c /\
    (is_ecue_list c = false -> content_ok b c /\ exists bs, enc_content b c = Ok bs /\ has buf pos bs /\ pos' = pos + len bs)) as HWAVE.
  { intros w HW EK. apply bind_inv in HW as (f & q & A & HW). apply ret_inv in HW as [<- <-]. apply wave_rw in A as (T & O & L & (n & C1 & C2) & bs & E & HBS & ->); try easy.
    cbn [kind_fits content_ok enc_content]. rewrite T. split; [easy|]. split; [|intros _; split; [easy|eauto]]. split; [|easy]. cbn [counted_size]. rewrite T.
    eapply content_size_agree; [easy|exact C1|]. destruct b; cbn [same_u32]; now symmetry. }
  destruct (h_kind h) eqn:EK; try (apply (HWAVE _ HR); reflexivity); try discriminate HR; clear HWAVE.
  - unfold rd_beat_grid in HR. apply bind_inv in HR as (u1 & q1 & A1 & HR). apply bind_inv in HR as (u2 & q2 & A2 & HR). apply bind_inv in HR as (n & q3 & A3 & HR).
    apply bind_inv in HR as (bs & q4 & A4 & HR). apply ret_inv in HR as [<- <-]. apply rd_be4_inv in A1 as (U1 & B1 & ->); [|easy]. apply rd_be4_inv in A2 as (U2 & B2 & ->); [|easy].
    apply rd_be4_inv in A3 as (U3 & B3 & ->); [|easy]. pose proof (has_len _ _ _ B3) as L3. rewrite len_be_enc in L3. change (N.of_nat 4) with 4 in L3.
    apply (rd_count_res_inv (enc_fields b beat_fields) _ (plain_ok beat_fields)) in A4 as (LD & PD & db & ED & HD & ->); [| |lia].
    2:{ intros v q q' HQ HV. eapply plain_rw; try eassumption. reflexivity. }
    split; [easy|]. split; [easy|]. intros _. assert (len bs = n) as LN by (unfold len; rewrite LD; lia). cbn [content_ok enc_content]. rewrite LN. split; [easy|].
    rewrite ED. cbn [res_bind]. rewrite (N.mod_small n) by easy. eexists. split; [reflexivity|]. split.
    + apply has_app. rewrite len_be_enc. split; [easy|]. apply has_app. rewrite len_be_enc. split; [exact B2|]. apply has_app. rewrite len_be_enc. split; [exact B3|exact HD].
    + rewrite !len_app, !len_be_enc. cbn [N.of_nat]. lia.
  - unfold rd_cue_list in HR. apply bind_inv in HR as (ty & q1 & A1 & HR). apply bind_inv in HR as (u & q2 & A2 & HR). apply bind_inv in HR as (n & q3 & A3 & HR).
    apply bind_inv in HR as (mc & q4 & A4 & HR). apply bind_inv in HR as (cs & q5 & A5 & HR). apply ret_inv in HR as [<- <-].
    apply (list_type_rw b) in A1 as (T1 & tb & T2 & T3 & -> & T4); [|easy]. rewrite T4 in *.
    apply rd_be2_inv in A2 as (U2 & B2 & ->); [|easy]. apply rd_be2_inv in A3 as (U3 & B3 & ->); [|easy]. apply rd_be4_inv in A4 as (U4 & B4 & ->); [|easy].
    pose proof (has_len _ _ _ B4) as L3. rewrite len_be_enc in L3. change (N.of_nat 4) with 4 in L3.
    apply (rd_count_res_inv (enc_cue b) _ cue_ok) in A5 as (LD & PD & db & ED & HD & ->); [| |lia].
    2:{ intros v q q' HQ HV. now apply cue_rw. }
    split; [easy|]. split; [easy|]. intros _. assert (len cs = n) as LN by (unfold len; rewrite LD; lia). cbn [content_ok enc_content]. rewrite LN. split; [easy|].
    rewrite T2. cbn [res_bind]. rewrite ED. cbn [res_bind]. rewrite (N.mod_small n) by easy. eexists. split; [reflexivity|]. split.
    + apply has_app. rewrite T4. split; [easy|]. apply has_app. rewrite len_be_enc. split; [exact B2|]. apply has_app. rewrite len_be_enc. split; [exact B3|].
      apply has_app. rewrite len_be_enc. split; [exact B4|exact HD].
    + rewrite !len_app, !len_be_enc, T4. cbn [N.of_nat]. lia.
  - unfold rd_ecue_list in HR. apply bind_inv in HR as (ty & q1 & A1 & HR). apply bind_inv in HR as (n & q2 & A2 & HR). apply bind_inv in HR as (u & q3 & A3 & HR).
    apply bind_inv in HR as (x & q4 & A4 & HR). apply bind_inv in HR as (cs & q5 & A5 & HR). apply ret_inv in HR as [<- <-]. split; [easy|]. split; [easy|]. easy.
  - apply path_rw in HR as (p & -> & P1 & P2 & (n & P3) & bs & EB & HBS & ->); [|easy|easy]. split; [easy|]. split; [|intros _; split; [easy|eauto]].
    split; [|easy]. cbn [counted_size]. eapply content_size_agree; [easy|rewrite <- P2; exact P3|].
    assert (len p < 2 ^ 31) as LP.
    { cbn [enc_content] in EB. rewrite P3 in EB. cbn [res_bind] in EB. apply Ok_inj in EB as <-. apply has_len in HBS. rewrite !len_app, len_units in HBS. lia. }
    unfold path_size in P3. rewrite (N.mod_small (len p)) in P3 by lia. unfold wadd in P3. replace (len p + 1 <? 2 ^ 32) with true in P3 by lia. cbn [res_bind] in P3.
    unfold wmul, ovf in P3. destruct ((len p + 1) * 2 <? 2 ^ 32) eqn:EL.
    + apply Ok_inj in P3 as <-. destruct b; cbn [same_u32]; [lia|]. rewrite N.mod_small; lia.
    + destruct b; [discriminate|]. apply Ok_inj in P3 as <-. cbn [same_u32]. f_equal. lia.
  - unfold rd_vbr in HR. apply bind_inv in HR as (u & q1 & A1 & HR). apply bind_inv in HR as (n & q2 & A2 & HR). apply bind_inv in HR as (d & q3 & A3 & HR).
    apply ret_inv in HR as [<- <-]. apply rd_be4_inv in A1 as (U1 & B1 & ->); [|easy]. apply lift_inv in A2 as [A2 <-]. apply rd_bytes_inv in A3 as (LD & -> & HD).
    pose proof (has_len _ _ _ B1) as L3. rewrite len_be_enc in L3. change (N.of_nat 4) with 4 in L3.
    assert (has buf (pos + 4) d) as HD'. { destruct HD as [->|HD]; [|easy]. apply len_0_nil in LD. subst d. apply has_nil. lia. }
    split; [easy|]. split.
    + split; [|easy]. cbn [counted_size]. eapply content_size_agree; [easy|exact A2|]. rewrite LD. apply content_size_inv in A2 as [A2 _]; [|apply HH|apply HH].
      destruct b; cbn [same_u32]; [easy|now apply N.mod_small].
    + intros _. cbn [content_ok enc_content]. split; [split; [easy|eapply has_bytes_ok; eassumption]|]. eexists. split; [reflexivity|]. split; [apply has_app; split; [easy|now rewrite len_be_enc]|].
      rewrite len_app, len_be_enc, LD. cbn [N.of_nat]. lia.
  - apply bind_inv in HR as (s & q & A & HR). apply ret_inv in HR as [<- <-]. apply song_rw in A as (DO & SF & CS & bs & EB & HBS & ->); try easy.
    split; [easy|]. split; [|intros _; cbn [content_ok enc_content]; split; [easy|eauto]]. split; [|easy]. cbn [counted_size].
    eapply content_size_agree; [easy|exact CS|]. destruct SF as [SF _]. destruct b; cbn [same_u32]; [easy|]. apply N.mod_small. lia.
  - unfold rd_unknown in HR. apply bind_inv in HR as (n & q1 & A1 & HR). apply bind_inv in HR as (hd & q2 & A2 & HR). apply bind_inv in HR as (m & q3 & A3 & HR).
    apply bind_inv in HR as (d & q4 & A4 & HR). apply ret_inv in HR as [<- <-]. apply lift_inv in A1 as [A1 <-]. apply lift_inv in A3 as [A3 <-].
    apply rd_bytes_inv in A2 as (LN & -> & HN). apply rd_bytes_inv in A4 as (LM & -> & HM).
    assert (has buf pos hd) as HN'. { destruct HN as [->|HN]; [|easy]. apply len_0_nil in LN. subst hd. now apply has_nil. }
    pose proof (has_len _ _ _ HN') as L3. rewrite LN in L3.
    assert (has buf (pos + n) d) as HM'. { destruct HM as [->|HM]; [|easy]. apply len_0_nil in LM. subst d. apply has_nil. lia. }
    split; [cbn; eauto|]. split.
    + split; cbn [counted_size].
      * eapply content_size_agree; [easy|exact A3|]. rewrite LM. apply content_size_inv in A3 as [A3 _]; [|apply HH|apply HH].
        destruct b; cbn [same_u32]; [easy|now apply N.mod_small].
      * rewrite LN. unfold remaining_size, wsub, ovf in A1. destruct HH as (_ & HS & _). destruct (12 <=? h_size h) eqn:E12.
        -- apply Ok_inj in A1 as <-. destruct b; cbn [same_u32]; [lia|]. replace (12 + (h_size h - 12)) with (h_size h) by lia. now apply N.mod_small.
        -- destruct b; [discriminate|]. apply Ok_inj in A1 as <-. cbn [same_u32]. change (2 ^ 32) with 4294967296 in *. lia.
    + intros _. cbn [content_ok enc_content]. split; [split; eapply has_bytes_ok; eassumption|]. eexists. split; [reflexivity|].
      split; [apply has_app; split; [easy|now rewrite LN]|]. rewrite len_app, LN, LM. lia.
Qed.
Lemma section_rw b s buf pos pos' :
  bytes_ok buf -> len buf < 2 ^ 32 -> rd_section b buf pos = Ok (s, pos') ->
  header_ok (se_header s) /\ kind_fits (h_kind (se_header s)) (se_content s) /\ sizes_agree b (se_header s) (se_content s) /\
  (is_ecue_list (se_content s) = false ->
   content_ok b (se_content s) /\ exists bs, enc_section b s = Ok bs /\ has buf pos bs /\ pos' = pos + len bs).
Proof.
  intros HB HL HR. unfold rd_section in HR. apply bind_inv in HR as (h & q1 & A1 & HR). apply bind_inv in HR as (c & q2 & A2 & HR). apply ret_inv in HR as [<- <-].
  cbn [se_header se_content]. apply header_rw in A1 as (HO & HH & ->); [|easy]. pose proof (has_len _ _ _ HH) as L1. rewrite len_enc_header in L1.
  apply content_rw in A2 as (K & S & R); try easy. split; [easy|]. split; [easy|]. split; [easy|]. intro E. destruct (R E) as (CO & bs & EB & HBS & ->). split; [easy|].
  unfold enc_section. cbn [se_header se_content]. rewrite EB. eexists. split; [reflexivity|]. split; [apply has_app; split; [easy|now rewrite len_enc_header]|].
  rewrite len_app, len_enc_header. lia.
Qed.
