(** * Progress of the section loop, panics, whole files *)
From Coq Require Import NArith ZArith List Bool Lia.
From Coq Require Import ZifyBool ZifyNat ZifyN.
From Verif Require Import Base BaseFacts Utf UtfFacts Str Schema SchemaFacts Xor XorFacts Anlz AnlzFacts AnlzSpec AnlzCodec AnlzSong AnlzSections.
Import ListNotations.
Open Scope N_scope.
Ltac Zify.zify_post_hook ::= Z.div_mod_to_equations.

(** ** Readers do not move back, and not beyond the end *)
Definition adv {A} (p : parser A) : Prop :=
  forall buf pos a pos', p buf pos = Ok (a, pos') -> pos <= pos' /\ (pos <= len buf -> pos' <= len buf).
Lemma adv_ret {A} (a : A) : adv (ret a).
Proof. intros buf pos x pos' H. apply ret_inv in H as [_ <-]. lia. Qed.
Lemma adv_fail {A} e : adv (@fail A e).
Proof. intros buf pos x pos' H. discriminate. Qed.
Lemma adv_guard c e : adv (guard c e).
Proof. intros buf pos x pos' H. apply guard_inv in H as [_ <-]. lia. Qed.
Lemma adv_lift {A} (r : res A) : adv (lift r).
Proof. intros buf pos x pos' H. apply lift_inv in H as [_ <-]. lia. Qed.
Lemma adv_bind {A B} (p : parser A) (f : A -> parser B) : adv p -> (forall a, adv (f a)) -> adv (bind p f).
Proof.
  intros HP HF buf pos x pos' H. apply bind_inv in H as (a & q & H1 & H2). apply HP in H1. apply HF in H2. lia.
Qed.
Lemma adv_bytes n : adv (rd_bytes n).
Proof.
  intros buf pos x pos' H. unfold rd_bytes in H. destruct (n =? 0); [injection H as _ <-; lia|]. destruct (pos + n <=? len buf) eqn:E; [|easy].
  injection H as _ <-. lia.
Qed.
Lemma adv_be n : adv (rd_be n).
Proof. apply adv_bind; [apply adv_bytes|intro; apply adv_ret]. Qed.
Lemma adv_le n : adv (rd_le n).
Proof. apply adv_bind; [apply adv_bytes|intro; apply adv_ret]. Qed.
Lemma adv_count {A} (p : parser A) n : adv p -> adv (rd_count n p).
Proof.
  intro HP. induction n as [|n IH]; cbn [rd_count]; [apply adv_ret|]. apply adv_bind; [easy|]. intro. apply adv_bind; [easy|]. intro. apply adv_ret.
Qed.
Lemma adv_until0 (p : parser N) fuel : adv p -> adv (rd_until0 fuel p).
Proof.
  intro HP. induction fuel as [|f IH]; cbn [rd_until0]; [apply adv_fail|]. apply adv_bind; [easy|]. intro x. destruct (x =? 0); [apply adv_ret|].
  apply adv_bind; [easy|]. intro. apply adv_ret.
Qed.
Lemma adv_nullwide : adv rd_nullwide.
Proof. intros buf pos x pos' H. unfold rd_nullwide in H. now apply (adv_until0 (rd_be 2) _ (adv_be 2)) in H. Qed.
Lemma adv_field f : adv (rd_field (fail EIo) f).
Proof.
  assert (forall e n, adv (rd_int e n)) as HI by (intros [] n; [apply adv_le|apply adv_be]).
  destruct f; cbn [rd_field]; repeat (apply adv_bind || apply HI || apply adv_ret || apply adv_guard || apply adv_fail || apply adv_bytes || intro).
Qed.
Lemma adv_plain fs : adv (rd_plain fs).
Proof.
  unfold rd_plain. induction fs as [|f fs IH]; cbn [rd_fields]; [apply adv_ret|]. apply adv_bind; [apply adv_field|]. intro. apply adv_bind; [easy|]. intro. apply adv_ret.
Qed.
Ltac adv_step := apply adv_nullwide || apply adv_bind || apply adv_be || apply adv_ret || apply adv_guard || apply adv_fail || apply adv_lift || apply adv_bytes ||
  apply adv_plain || apply adv_field || apply adv_nullwide || apply adv_count ||
  match goal with |- forall _, _ => intro | |- _ -> _ => intro end.
Lemma adv_header : adv rd_header.
Proof. unfold rd_header, rd_ckind. repeat adv_step. Qed.
Lemma adv_comment : adv rd_comment.
Proof.
  unfold rd_comment. apply adv_bind; [apply adv_be|]. intro n. destruct (n =? 0); [apply adv_ret|]. apply adv_bind; [apply adv_bytes|]. intro bs.
  destruct (utf16_dec _); [apply adv_ret|apply adv_fail].
Qed.
Lemma adv_cue : adv rd_cue.
Proof. unfold rd_cue. apply adv_bind; [apply adv_header|]. intro. repeat adv_step. Qed.
Lemma adv_ecue b : adv (rd_ecue b).
Proof.
  unfold rd_ecue. apply adv_bind; [apply adv_header|]. intro. apply adv_bind; [apply adv_plain|]. intro. apply adv_bind; [apply adv_comment|]. intro. repeat adv_step.
Qed.
Lemma adv_song_data n : adv (rd_song_data n).
Proof. unfold rd_song_data. repeat adv_step. Qed.
Lemma adv_encrypted b e n : adv (rd_encrypted b e n).
Proof.
  unfold rd_encrypted. destruct e; [|apply adv_song_data]. apply adv_bind; [apply adv_lift|]. intros key buf pos x pos' H. apply adv_song_data in H.
  now rewrite len_view in H.
Qed.
Lemma adv_song b h : adv (rd_song b h).
Proof.
  unfold rd_song. do 6 (apply adv_bind; [solve [repeat adv_step]|intro]). intros buf pos x pos' H.
  apply bind_inv in H as (p & q1 & A1 & H). unfold tell in A1. injection A1 as <- <-. apply bind_inv in H as (raw & q2 & A2 & H).
  apply bind_inv in H as (z & q3 & A3 & H). unfold seek_to in A3. injection A3 as _ <-. apply bind_inv in H as (e & q4 & A4 & H). apply lift_inv in A4 as [_ <-].
  apply bind_inv in H as (d & q5 & A5 & H). apply ret_inv in H as [_ <-]. now apply adv_encrypted in A5.
Qed.
Lemma adv_wave b h w : adv (rd_wave b h w).
Proof.
  unfold rd_wave, rd_wave_count, rd_wave_unknown. apply adv_bind; [destruct (wave_entry w); repeat adv_step|]. intro.
  apply adv_bind; [destruct (wave_unknown w); repeat adv_step|]. intro. repeat adv_step.
Qed.
Lemma adv_content b h : adv (rd_content b h).
Proof.
  unfold rd_content. destruct (h_kind h); try apply adv_fail; try (apply adv_bind; [apply adv_wave || apply adv_song|intro; apply adv_ret]).
  - unfold rd_beat_grid. repeat adv_step.
  - unfold rd_cue_list. do 4 (apply adv_bind; [repeat adv_step|intro]). apply adv_bind; [apply adv_count, adv_cue|intro; apply adv_ret].
  - unfold rd_ecue_list. do 4 (apply adv_bind; [repeat adv_step|intro]). apply adv_bind; [apply adv_count, adv_ecue|intro; apply adv_ret].
  - unfold rd_path. repeat adv_step.
  - unfold rd_vbr. repeat adv_step.
  - unfold rd_unknown. repeat adv_step.
Qed.
Lemma header_pos h buf pos pos' : rd_header buf pos = Ok (h, pos') -> pos' = pos + 12 /\ pos + 12 <= len buf.
Proof.
  intro HR. unfold rd_header, rd_ckind in HR. apply bind_inv in HR as (k & p1 & H1 & HR). apply bind_inv in H1 as (c & p0 & H0 & H1).
  apply ret_inv in H1 as [_ <-]. apply bind_inv in HR as (s & p2 & H2 & HR). apply bind_inv in HR as (t & p3 & H3 & HR). apply ret_inv in HR as [_ <-].
  assert (forall v q q', rd_be 4 buf q = Ok (v, q') -> q' = q + 4 /\ q + 4 <= len buf) as R4.
  { intros v q q' H. unfold rd_be in H. apply bind_inv in H as (bs & q1 & A & H). apply ret_inv in H as [_ <-]. unfold rd_bytes in A.
    change (N.of_nat 4 =? 0) with false in A. change (N.of_nat 4) with 4 in A. destruct (q + 4 <=? len buf) eqn:E; [|easy]. split; [congruence|lia]. }
  apply R4 in H0, H2, H3. lia.
Qed.
Lemma section_adv b s buf pos pos' : rd_section b buf pos = Ok (s, pos') -> pos + 12 <= pos' /\ pos' <= len buf.
Proof.
  intro H. unfold rd_section in H. apply bind_inv in H as (h & p1 & H1 & H). apply header_pos in H1 as [-> HL].
  apply bind_inv in H as (c & p2 & H2 & H). apply ret_inv in H as [_ <-]. apply adv_content in H2. lia.
Qed.

(** ** The loop *)
Lemma loop_some b final buf : forall fuel pos, (N.to_nat (len buf - pos) < fuel)%nat -> exists r, sections_loop fuel b final buf pos = Some r.
Proof.
  induction fuel as [|f IH]; intros pos HF; [lia|]. cbn [sections_loop]. destruct (pos <? final); [|eauto].
  destruct (rd_section b buf pos) as [[s p]|e|] eqn:E; [|eauto|eauto]. apply section_adv in E as [E1 E2].
  destruct (IH p) as (r & ->); [lia|]. destruct r as [[l q]| |]; eauto.
Qed.
Lemma loop_fuel b final buf : forall fuel1 fuel2 pos r,
  sections_loop fuel1 b final buf pos = Some r -> (fuel1 <= fuel2)%nat -> sections_loop fuel2 b final buf pos = Some r.
Proof.
  induction fuel1 as [|f1 IH]; intros [|f2] pos r H L; try (easy || lia). cbn [sections_loop] in *. destruct (pos <? final); [|easy].
  destruct (rd_section b buf pos) as [[s p]|e|]; [|easy|easy]. destruct (sections_loop f1 b final buf p) as [r1|] eqn:E; [|easy].
  rewrite (IH f2 p r1 E) by lia. easy.
Qed.
Lemma loop_bound b final buf : forall fuel pos l p,
  sections_loop fuel b final buf pos = Some (Ok (l, p)) -> pos + 12 * len l <= p /\ ((l = [] /\ p = pos) \/ p <= len buf) /\ final <= p.
Proof.
  induction fuel as [|f IH]; intros pos l p H; [easy|]. cbn [sections_loop] in H. destruct (pos <? final) eqn:EF.
  - destruct (rd_section b buf pos) as [[s q]|e|] eqn:E; [|easy|easy]. apply section_adv in E as [E1 E2].
    destruct (sections_loop f b final buf q) as [[[r z]|e|]|] eqn:EL; [|easy|easy|easy].
    assert (l = s :: r /\ z = p) as [-> ->] by (split; congruence). apply IH in EL as (L1 & L2 & L3). rewrite len_cons. split; [lia|]. split; [|easy]. right.
    destruct L2 as [[_ ->]|L2]; easy.
  - assert (l = [] /\ p = pos) as [-> ->] by (split; congruence). rewrite (@len_nil section). split; [lia|]. split; [now left|lia].
Qed.

(** A run of the loop as a relation: the sections one after the other, until the end is reached. *)
Inductive sections_at (b : build) (final : N) (buf : list N) : N -> list section -> N -> Prop :=
| sa_done pos : final <= pos -> sections_at b final buf pos [] pos
| sa_more pos s pos' l q : pos < final -> rd_section b buf pos = Ok (s, pos') -> sections_at b final buf pos' l q ->
    sections_at b final buf pos (s :: l) q.
Lemma loop_sections b final buf : forall fuel pos l p, sections_loop fuel b final buf pos = Some (Ok (l, p)) -> sections_at b final buf pos l p.
Proof.
  induction fuel as [|f IH]; intros pos l p H; [easy|]. cbn [sections_loop] in H. destruct (pos <? final) eqn:EF.
  - destruct (rd_section b buf pos) as [[s q]|e|] eqn:E; [|easy|easy].
    destruct (sections_loop f b final buf q) as [[[r z]|e|]|] eqn:EL; [|easy|easy|easy].
    assert (l = s :: r /\ z = p) as [-> ->] by (split; congruence). apply (sa_more _ _ _ _ _ q); [lia|easy|now apply IH].
  - assert (l = [] /\ p = pos) as [-> ->] by (split; congruence). constructor. lia.
Qed.
Lemma sections_loop_at b final buf pos l p : sections_at b final buf pos l p ->
  forall fuel, (length l < fuel)%nat -> sections_loop fuel b final buf pos = Some (Ok (l, p)).
Proof.
  induction 1 as [pos HL|pos s pos' l q HL HR HS IH]; intros [|f] HF; try (cbn in HF; lia); cbn [sections_loop].
  - now replace (pos <? final) with false by lia.
  - replace (pos <? final) with true by lia. rewrite HR, IH by (cbn in HF; lia). easy.
Qed.

(** ** Whole files *)
Lemma enc_sections_at b : forall l buf pos bs, Forall (section_ok b) l -> enc_all (enc_section b) l = Ok bs -> has buf pos bs ->
  sections_at b (pos + len bs) buf pos l (pos + len bs).
Proof.
  induction l as [|s l IH]; intros buf pos bs HO HE HB; cbn [enc_all] in HE.
  - apply Ok_inj in HE as <-. rewrite (@len_nil N), N.add_0_r. constructor. lia.
  - destruct (enc_section b s) as [x| |] eqn:EX; try easy. cbn [res_bind] in HE. destruct (enc_all (enc_section b) l) as [y| |] eqn:EY; try easy.
    apply Ok_inj in HE as <-. apply Forall_cons_iff in HO as [HS HO]. apply has_app in HB as [HX HY]. rewrite len_app, N.add_assoc.
    pose proof (section_wr b s buf pos x HS EX HX) as HR. pose proof (section_adv _ _ _ _ _ HR) as [HA _].
    apply (sa_more _ _ _ _ _ (pos + len x)); [lia|easy|]. now apply IH.
Qed.
