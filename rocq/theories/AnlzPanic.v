(** * When reading a section panics *)
From Coq Require Import NArith ZArith List Bool Lia.
From Coq Require Import ZifyBool ZifyNat ZifyN.
From Verif Require Import Base BaseFacts Utf UtfFacts Str Schema SchemaFacts Xor XorFacts Anlz AnlzFacts AnlzSpec AnlzCodec AnlzSong AnlzSections AnlzLoop.
Import ListNotations.
Open Scope N_scope.
Ltac Zify.zify_post_hook ::= Z.div_mod_to_equations.

Definition np {A} (buf : list N) (p : parser A) : Prop := forall pos, p buf pos <> Panic.
Lemma np_bind {A B} buf (p : parser A) (f : A -> parser B) :
  np buf p -> (forall a pos pos', p buf pos = Ok (a, pos') -> f a buf pos' <> Panic) -> np buf (bind p f).
Proof.
  intros HP HF pos H. unfold bind in H. destruct (p buf pos) as [[a q]| |] eqn:E; [|easy|now apply HP in E]. now apply (HF _ _ _ E) in H.
Qed.
Lemma np_bind' {A B} buf (p : parser A) (f : A -> parser B) : np buf p -> (forall a, np buf (f a)) -> np buf (bind p f).
Proof. intros HP HF. apply np_bind; [easy|]. intros a pos pos' _. apply HF. Qed.
Lemma np_ret {A} buf (a : A) : np buf (ret a).
Proof. easy. Qed.
Lemma np_fail {A} buf e : np buf (@fail A e).
Proof. easy. Qed.
Lemma np_guard buf c e : np buf (guard c e).
Proof. intro pos. unfold guard. now destruct c. Qed.
Lemma np_bytes buf n : np buf (rd_bytes n).
Proof. intro. apply rd_bytes_no_panic. Qed.
Lemma np_be buf n : np buf (rd_be n).
Proof. intro. apply rd_be_no_panic. Qed.
Lemma np_plain buf fs : np buf (rd_plain fs).
Proof. intro. now apply fields_no_panic. Qed.
Lemma np_count {A} buf (p : parser A) n : np buf p -> np buf (rd_count n p).
Proof. intros H pos. now apply rd_count_no_panic. Qed.
Lemma np_lift {A} buf (r : res A) : r <> Panic -> np buf (lift r).
Proof. intros H pos. unfold lift. now destruct r. Qed.
Lemma np_header buf : np buf rd_header.
Proof.
  unfold rd_header, rd_ckind. apply np_bind'; [apply np_bind'; [apply np_be|intro; apply np_ret]|]. intro. apply np_bind'; [apply np_be|intro].
  apply np_bind'; [apply np_be|intro; apply np_ret].
Qed.
Lemma np_comment buf : np buf rd_comment.
Proof.
  unfold rd_comment. apply np_bind'; [apply np_be|]. intro n. destruct (n =? 0); [apply np_ret|]. apply np_bind'; [apply np_bytes|]. intro.
  destruct (utf16_dec _); [apply np_ret|apply np_fail].
Qed.
Lemma np_nullwide buf : np buf rd_nullwide.
Proof. intro pos. apply until0_be2_no_panic. Qed.
Lemma np_song_data buf n : np buf (rd_song_data n).
Proof. unfold rd_song_data. apply np_bind'; [apply np_plain|]. intro. apply np_bind'; [apply np_count, np_plain|]. intro. apply np_ret. Qed.
Lemma np_list_type buf : np buf (rd_field (fail EIo) cue_list_type).
Proof.
  intro pos. pose proof (np_plain buf [cue_list_type] pos) as H. unfold rd_plain in H. cbn [rd_fields] in H. unfold bind in H at 1.
  now destruct (rd_field (fail EIo) cue_list_type buf pos) as [[? ?]| |].
Qed.
Lemma np_beat_grid buf : np buf rd_beat_grid.
Proof.
  unfold rd_beat_grid. do 3 (apply np_bind'; [apply np_be|intro]). apply np_bind'; [apply np_count, np_plain|]. intro. apply np_ret.
Qed.
Lemma np_cue_list buf : np buf rd_cue_list.
Proof.
  unfold rd_cue_list. apply np_bind'; [apply np_list_type|intro]. do 3 (apply np_bind'; [apply np_be|intro]).
  apply np_bind'; [|intro; apply np_ret]. apply np_count. unfold rd_cue. apply np_bind'; [apply np_header|intro]. apply np_bind'; [apply np_plain|intro; apply np_ret].
Qed.

(** ** Without overflow checks *)
Lemma wadd_release w x y : wadd Release w x y <> Panic.
Proof. unfold wadd, ovf. now destruct (_ <? _). Qed.
Lemma wsub_release w x y : wsub Release w x y <> Panic.
Proof. unfold wsub, ovf. now destruct (_ <=? _). Qed.
Lemma wmul_release w x y : wmul Release w x y <> Panic.
Proof. unfold wmul, ovf. now destruct (_ <? _). Qed.
Lemma res_bind_np {A B} (r : res A) (f : A -> res B) : r <> Panic -> (forall a, f a <> Panic) -> res_bind r f <> Panic.
Proof. intros H HF. destruct r; cbn [res_bind]; try easy. Qed.
Lemma get_key_release n k : get_key Release n k <> Panic.
Proof.
  unfold get_key. induction (takeN k key_data) as [|x l IH]; cbn [map all_ok]; [easy|]. apply res_bind_np.
  - unfold key_byte. apply res_bind_np; [apply wadd_release|easy].
  - intro. now apply res_bind_np.
Qed.
Lemma check_np b raw n : get_key b n 2 <> Panic -> check_if_encrypted b raw n <> Panic.
Proof.
  intro H. unfold check_if_encrypted. apply res_bind_np; [easy|]. intro key. cbv zeta.
  pose proof (np_plain (map (fun p => N.lxor (fst p) (snd p)) (combine raw key)) [mood] 0) as HP. now destruct (rd_plain _ _ _) as [[? ?]| |].
Qed.
Lemma np_ecue_list b buf : (forall h s, trailing_size b h s <> Panic) -> np buf (rd_ecue_list b).
Proof.
  intro HT. unfold rd_ecue_list. apply np_bind'; [apply np_list_type|intro]. do 2 (apply np_bind'; [apply np_be|intro]). apply np_bind'; [apply np_guard|intro].
  apply np_bind'; [|intro; apply np_ret]. apply np_count. unfold rd_ecue. apply np_bind'; [apply np_header|intro]. apply np_bind'; [apply np_plain|intro].
  apply np_bind'; [apply np_comment|intro]. apply np_bind'; [apply np_plain|intro]. apply np_bind'; [apply np_lift, HT|intro]. apply np_bind'; [apply np_bytes|intro; apply np_ret].
Qed.
Lemma np_content_release buf h : np buf (rd_content Release h).
Proof.
  assert (content_size Release h <> Panic) as HC by apply wsub_release.
  assert (remaining_size Release h <> Panic) as HR by apply wsub_release.
  assert (forall w, np buf (rd_wave Release h w)) as HW.
  { intro w. unfold rd_wave. apply np_bind'; [|intro].
    - unfold rd_wave_count. destruct (wave_entry w).
      + apply np_bind'; [apply np_be|intro]. apply np_bind'; [apply np_guard|intro]. apply np_bind'; [apply np_be|intro].
        apply np_bind'; [apply np_lift, wmul_release|intro]. apply np_bind'; [now apply np_lift|intro]. apply np_bind'; [apply np_guard|intro; apply np_ret].
      + apply np_bind'; [apply np_be|intro]. apply np_bind'; [now apply np_lift|intro]. apply np_bind'; [apply np_guard|intro; apply np_ret].
    - apply np_bind'; [|intro; apply np_bind'; [apply np_count, np_plain|intro; apply np_ret]]. unfold rd_wave_unknown. destruct (wave_unknown w).
      + apply np_ret.
      + apply np_bind'; [apply np_be|intro; apply np_ret].
      + apply np_bind'; [apply np_be|intro]. apply np_bind'; [apply np_guard|intro; apply np_ret]. }
  unfold rd_content. destruct (h_kind h); try apply np_fail; try (apply np_bind'; [apply HW|intro; apply np_ret]).
  - apply np_beat_grid.
  - apply np_cue_list.
  - apply np_ecue_list. intros h0 s. unfold trailing_size. apply res_bind_np.
    + unfold byte_len. destruct s; [easy|]. apply res_bind_np; [apply wadd_release|intro; apply wmul_release].
    + intro. apply res_bind_np; [apply wadd_release|easy].
  - unfold rd_path. apply np_bind'; [apply np_be|intro]. apply np_bind'; [now apply np_lift|intro]. apply np_bind'; [apply np_guard|intro].
    apply np_bind'; [apply np_nullwide|intro]. apply np_bind'; [now apply np_lift|intro]. apply np_bind'; [apply np_guard|intro].
    apply np_bind'; [apply np_lift|intro; apply np_bind'; [apply np_guard|intro; apply np_ret]]. unfold path_size. apply res_bind_np; [apply wadd_release|intro; apply wmul_release].
  - unfold rd_vbr. apply np_bind'; [apply np_be|intro]. apply np_bind'; [now apply np_lift|intro]. apply np_bind'; [apply np_bytes|intro; apply np_ret].
  - apply np_bind'; [|intro; apply np_ret]. unfold rd_song. apply np_bind'; [apply np_be|intro]. apply np_bind'; [apply np_guard|intro]. apply np_bind'; [apply np_be|intro].
    apply np_bind'; [apply np_lift, wmul_release|intro]. apply np_bind'; [now apply np_lift|intro]. apply np_bind'; [apply np_guard|intro]. apply np_bind'; [easy|intro].
    apply np_bind'; [apply np_bytes|intro]. apply np_bind'; [easy|intro]. apply np_bind'; [apply np_lift, check_np, get_key_release|intro].
    apply np_bind'; [|intro; apply np_ret]. unfold rd_encrypted. destruct a8; [|apply np_song_data]. apply np_bind'; [apply np_lift, get_key_release|]. intros key pos. apply np_song_data.
  - unfold rd_unknown. apply np_bind'; [now apply np_lift|intro]. apply np_bind'; [apply np_bytes|intro]. apply np_bind'; [now apply np_lift|intro].
    apply np_bind'; [apply np_bytes|intro; apply np_ret].
Qed.
Lemma section_release buf : np buf (rd_section Release).
Proof. unfold rd_section. apply np_bind'; [apply np_header|]. intro h. apply np_bind'; [apply np_content_release|intro; apply np_ret]. Qed.

(** ** With overflow checks *)
(** A section with header [h] whose content begins at [pos]. *)
Definition size_panic (buf : list N) (pos : N) (h : header) : Prop :=
  let sizes := h_total h < h_size h in
  let entries e := exists n, n < 2 ^ 32 /\ has buf pos (be_enc 4 e ++ be_enc 4 n) /\ (2 ^ 32 <= e * n \/ sizes) in
  match h_kind h with
  | KUnknown _ => h_size h < 12 \/ (sizes /\ (h_size h = 12 \/ pos + (h_size h - 12) <= len buf))
  | KPath | KVBR | KWaveformPreview | KTinyWaveformPreview => pos + 4 <= len buf /\ sizes
  | KWaveformDetail => entries 1
  | KWaveformColorPreview => entries 6
  | KWaveformColorDetail => entries 2
  | KWaveform3BandPreview | KWaveform3BandDetail => entries 3
  | KSongStructure =>
    exists n, n < 2 ^ 16 /\ has buf pos (be_enc 4 24 ++ be_enc 2 n) /\
      (sizes \/
       h_size h + 24 * n = h_total h /\ pos + 8 <= len buf /\
       (65310 < n \/ 65285 < n /\ exists m, valid_mood m /\ has buf (pos + 6) [key0 n; N.lxor m (key1 n)]))
  | _ => False
  end.
Lemma bind_panic {A B} (p : parser A) (f : A -> parser B) buf pos :
  bind p f buf pos = Panic <-> p buf pos = Panic \/ exists a q, p buf pos = Ok (a, q) /\ f a buf q = Panic.
Proof.
  unfold bind. destruct (p buf pos) as [[a q]| |]; split; try easy.
  - intro H. right. eauto.
  - intros [H|(x & r & E & H)]; [easy|]. now injection E as -> ->.
  - intros [H|(x & r & E & H)]; easy.
  - now left.
Qed.
Lemma content_size_panic h : content_size Debug h = Panic <-> h_total h < h_size h.
Proof. unfold content_size, wsub, ovf. destruct (h_size h <=? h_total h) eqn:E; split; (easy || lia). Qed.
Lemma rd_be_readable n buf pos : (exists v q, rd_be n buf pos = Ok (v, q)) <-> n = 0%nat \/ pos + N.of_nat n <= len buf.
Proof.
  unfold rd_be, bind, rd_bytes. destruct (N.of_nat n =? 0) eqn:E0.
  - split; [left; lia|]. intros _. eexists. eexists. reflexivity.
  - destruct (pos + N.of_nat n <=? len buf) eqn:E; split; try lia.
    + eexists. eexists. reflexivity.
    + intros (v & q & H). discriminate.
Qed.
Lemma be4_cs_panic {A} buf pos h (K : N -> N -> parser A) : (forall n cs, content_size Debug h = Ok cs -> np buf (K n cs)) ->
  ((let* n <- rd_be 4; let* cs <- lift (content_size Debug h); K n cs) buf pos = Panic <-> pos + 4 <= len buf /\ h_total h < h_size h).
Proof.
  intro HK. rewrite bind_panic. split.
  - intros [H|(n & q & H1 & H2)]; [now apply np_be in H|]. split; [destruct (proj1 (rd_be_readable 4 buf pos)); [eauto|easy|lia]|].
    apply bind_panic in H2 as [H2|(cs & r & H2 & H3)].
    + apply content_size_panic. unfold lift in H2. now destruct (content_size Debug h).
    + apply lift_inv in H2 as [H2 _]. now apply HK in H3.
  - intros [H1 H2]. right. destruct (proj2 (rd_be_readable 4 buf pos)) as (v & q & E); [right; cbn; lia|]. exists v, q. split; [easy|].
    apply bind_panic. left. unfold lift. apply content_size_panic in H2. now rewrite H2.
Qed.
Lemma wave_panic_none buf pos h w : wave_entry w = None ->
  (rd_wave Debug h w buf pos = Panic <-> pos + 4 <= len buf /\ h_total h < h_size h).
Proof.
  intro EW. unfold rd_wave, rd_wave_count. rewrite EW.
  rewrite <- (be4_cs_panic buf pos h (fun n cs => let* _ <- guard (n =? cs) EAssertFail; let* u <- rd_wave_unknown w;
    let* d <- rd_count (N.to_nat n) (rd_plain (wave_fields w)); ret {| wf_type := w; wf_unknown := u; wf_data := d |})).
  - unfold bind. destruct (rd_be 4 buf pos) as [[n q]| |]; [|easy|easy]. destruct (lift (content_size Debug h) buf q) as [[cs q1]| |]; [|easy|easy].
    destruct (guard (n =? cs) EAssertFail buf q1) as [[? q2]| |]; [|easy|easy]. unfold ret. easy.
  - intros n cs _. apply np_bind'; [apply np_guard|intro]. apply np_bind'.
    + unfold rd_wave_unknown. destruct (wave_unknown w).
      * apply np_ret.
      * apply np_bind'; [apply np_be|intro; apply np_ret].
      * apply np_bind'; [apply np_be|intro]. apply np_bind'; [apply np_guard|intro; apply np_ret].
    + intro. apply np_bind'; [apply np_count, np_plain|intro; apply np_ret].
Qed.
Lemma np_wave_rest buf w n : np buf (let* u <- rd_wave_unknown w; let* d <- rd_count n (rd_plain (wave_fields w)); ret {| wf_type := w; wf_unknown := u; wf_data := d |}).
Proof.
  apply np_bind'.
  - unfold rd_wave_unknown. destruct (wave_unknown w).
    + apply np_ret.
    + apply np_bind'; [apply np_be|intro; apply np_ret].
    + apply np_bind'; [apply np_be|intro]. apply np_bind'; [apply np_guard|intro; apply np_ret].
  - intro. apply np_bind'; [apply np_count, np_plain|intro; apply np_ret].
Qed.
Lemma wave_panic_some buf pos h w e : bytes_ok buf -> wave_entry w = Some e ->
  (rd_wave Debug h w buf pos = Panic <->
   exists n, n < 2 ^ 32 /\ has buf pos (be_enc 4 e ++ be_enc 4 n) /\ (2 ^ 32 <= e * n \/ h_total h < h_size h)).
Proof.
  intros HB EW. assert (e < 2 ^ 32) as EL by (destruct w; inversion EW; reflexivity). unfold rd_wave, rd_wave_count. rewrite EW. split.
  - intro H. apply bind_panic in H as [H|(n & q & _ & H)]; [|now apply np_wave_rest in H].
    apply bind_panic in H as [H|(eb & q1 & A1 & H)]; [now apply np_be in H|]. apply bind_panic in H as [H|(x & q2 & A2 & H)]; [now apply np_guard in H|].
    apply guard_inv in A2 as [A2 <-]. apply bind_panic in H as [H|(n & q3 & A3 & H)]; [now apply np_be in H|].
    apply rd_be4_inv in A1 as (E1 & E2 & ->); [|easy]. apply rd_be4_inv in A3 as (N1 & N2 & ->); [|easy]. assert (eb = e) as -> by lia.
    exists n. split; [easy|]. split; [apply has_app; rewrite len_be_enc; now split|].
    apply bind_panic in H as [H|(m & q4 & A4 & H)].
    + left. unfold lift, wmul, ovf in H. destruct (e * n <? 2 ^ 32) eqn:E; [easy|lia].
    + apply bind_panic in H as [H|(cs & q5 & A5 & H)].
      * right. apply content_size_panic. unfold lift in H. now destruct (content_size Debug h).
      * apply bind_panic in H as [H|(y & q6 & A6 & H)]; [now apply np_guard in H|]. easy.
  - intros (n & N1 & HH & HP). apply has_app in HH as [H1 H2]. rewrite len_be_enc in H2. change (N.of_nat 4) with 4 in H2. apply bind_panic. left.
    unfold bind. rewrite (rd_be4_has e _ _ EL H1). rewrite guard_ok by lia. rewrite (rd_be4_has n _ _ N1 H2). unfold lift, wmul.
    destruct (e * n <? 2 ^ 32) eqn:E; [|easy]. destruct HP as [HP|HP]; [lia|]. apply content_size_panic in HP. now rewrite HP.
Qed.
Lemma path_panic buf pos h : bytes_ok buf -> len buf < 2 ^ 32 ->
  (rd_path Debug h buf pos = Panic <-> pos + 4 <= len buf /\ h_total h < h_size h).
Proof.
  intros HB HL. unfold rd_path. apply (be4_cs_panic buf pos h). intros n cs EC. apply np_bind'; [apply np_guard|intro].
  intros q1 H. apply bind_panic in H as [H|(p & q2 & H1 & H)]; [now apply np_nullwide in H|].
  apply bind_panic in H as [H|(cs2 & q3 & H2 & H)]; [unfold lift in H; now rewrite EC in H|].
  apply bind_panic in H as [H|(x & q4 & H3 & H)]; [now apply np_guard in H|].
  apply bind_panic in H as [H|(m & q5 & H4 & H)]; [|now apply bind_panic in H as [H|(y & q6 & H5 & H)]; [apply np_guard in H|]].
  unfold rd_nullwide in H1. apply until0_be2_inv in H1 as (_ & H1 & ->); [|easy]. apply has_len in H1. rewrite len_app, len_units in H1.
  change (len [0; 0]) with 2 in H1. unfold lift in H. now rewrite path_size_ok in H by lia.
Qed.
Lemma vbr_panic buf pos h : rd_vbr Debug h buf pos = Panic <-> pos + 4 <= len buf /\ h_total h < h_size h.
Proof. unfold rd_vbr. apply (be4_cs_panic buf pos h). intros n cs _. apply np_bind'; [apply np_bytes|intro; apply np_ret]. Qed.
Lemma unknown_panic buf pos h : rd_unknown Debug h buf pos = Panic <->
  h_size h < 12 \/ (h_total h < h_size h /\ (h_size h = 12 \/ pos + (h_size h - 12) <= len buf)).
Proof.
  unfold rd_unknown, bind, lift, remaining_size, wsub at 1, ovf at 1. destruct (12 <=? h_size h) eqn:E; [|split; [lia|easy]].
  unfold rd_bytes at 1. destruct (h_size h - 12 =? 0) eqn:E0; [|destruct (pos + (h_size h - 12) <=? len buf) eqn:EL].
  - destruct (content_size Debug h) as [m| |] eqn:EC.
    + pose proof (rd_bytes_no_panic m buf pos). destruct (rd_bytes m buf pos) as [[? ?]| |]; split; try easy.
      all: intros [HH|[HH _]]; [lia|]; apply content_size_panic in HH; congruence.
    + split; [easy|]. intros [HH|[HH _]]; [lia|]; apply content_size_panic in HH; congruence.
    + apply content_size_panic in EC. split; [|easy]. intros _. right. split; [easy|lia].
  - destruct (content_size Debug h) as [m| |] eqn:EC.
    + pose proof (rd_bytes_no_panic m buf (pos + (h_size h - 12))). destruct (rd_bytes m buf (pos + (h_size h - 12))) as [[? ?]| |]; split; try easy.
      all: intros [HH|[HH _]]; [lia|]; apply content_size_panic in HH; congruence.
    + split; [easy|]. intros [HH|[HH _]]; [lia|]; apply content_size_panic in HH; congruence.
    + apply content_size_panic in EC. split; [|easy]. intros _. right. split; [easy|lia].
  - split; [easy|]. lia.
Qed.
Lemma check_true b x y n : x < 256 -> y < 256 -> key_fits b n 2 ->
  (check_if_encrypted b [x; y] n = Ok true <-> exists m, valid_mood m /\ x = key0 n /\ y = N.lxor m (key1 n)).
Proof.
  intros HX HY HK. split.
  - rewrite check_spec by easy. intro H. apply Ok_inj in H. apply mem_mood in H as [H1 H2]; [|apply lxor_byte; [easy|now apply N.mod_lt]].
    apply N.lxor_eq in H1. eexists. split; [exact H2|]. split; [easy|]. now rewrite N.lxor_assoc, N.lxor_nilpotent, N.lxor_0_r.
  - intros (m & HM & -> & ->). now apply check_encrypted.
Qed.
Lemma two_bytes buf pos raw : len raw = 2 -> has buf pos raw -> exists x y, raw = [x; y].
Proof.
  intros L _. destruct raw as [|x [|y [|z r]]]; rewrite ?len_cons, ?(@len_nil N) in L; try lia. eauto.
Qed.
Lemma song_panic buf pos h : bytes_ok buf ->
  (rd_song Debug h buf pos = Panic <->
   exists n, n < 2 ^ 16 /\ has buf pos (be_enc 4 24 ++ be_enc 2 n) /\
     (h_total h < h_size h \/
      h_size h + 24 * n = h_total h /\ pos + 8 <= len buf /\
      (65310 < n \/ 65285 < n /\ exists m, valid_mood m /\ has buf (pos + 6) [key0 n; N.lxor m (key1 n)]))).
Proof.
  intro HB. unfold rd_song. split.
  - intro H. apply bind_panic in H as [H|(eb & q1 & A1 & H)]; [now apply np_be in H|]. apply bind_panic in H as [H|(x & q2 & A2 & H)]; [now apply np_guard in H|].
    apply guard_inv in A2 as [A2 <-]. apply bind_panic in H as [H|(n & q3 & A3 & H)]; [now apply np_be in H|].
    apply rd_be4_inv in A1 as (E1 & E2 & ->); [|easy]. apply rd_be2_inv in A3 as (N1 & N2 & ->); [|easy]. assert (eb = 24) as -> by lia. clear E1 A2.
    exists n. split; [easy|]. split; [apply has_app; rewrite len_be_enc; now split|].
    apply bind_panic in H as [H|(m & q4 & A4 & H)]; [unfold lift, wmul in H; now replace (24 * n <? 2 ^ 32) with true in H by lia|].
    apply lift_inv in A4 as [A4 <-]. unfold wmul in A4. replace (24 * n <? 2 ^ 32) with true in A4 by lia. apply Ok_inj in A4 as <-.
    apply bind_panic in H as [H|(cs & q5 & A5 & H)].
    { left. apply content_size_panic. unfold lift in H. now destruct (content_size Debug h). }
    right. apply lift_inv in A5 as [A5 <-]. apply bind_panic in H as [H|(x1 & q6 & A6 & H)]; [now apply np_guard in H|]. apply guard_inv in A6 as [A6 <-].
    assert (cs = 24 * n) as -> by lia. split.
    { unfold content_size, wsub, ovf in A5. destruct (h_size h <=? h_total h) eqn:E; [|easy]. apply Ok_inj in A5. lia. }
    apply bind_panic in H as [H|(p & q7 & A7 & H)]; [easy|]. unfold tell in A7. injection A7 as <- <-.
    apply bind_panic in H as [H|(raw & q8 & A8 & H)]; [now apply np_bytes in H|]. apply rd_bytes_inv in A8 as (L8 & -> & [HE|A8]); [easy|].
    pose proof (has_len _ _ _ A8) as LH. split; [lia|]. destruct (two_bytes _ _ _ L8 A8) as (x0 & y & ->).
    pose proof (has_bytes_ok _ _ _ HB A8) as HXY. apply Forall_cons_iff in HXY as [HX HXY]. apply Forall_cons_iff in HXY as [HY _]. unfold is_u8 in *.
    apply bind_panic in H as [H|(z & q9 & A9 & H)]; [easy|]. unfold seek_to in A9. injection A9 as <- <-.
    apply bind_panic in H as [H|(e & q10 & A10 & H)].
    { left. destruct (N.lt_ge_cases 65310 n) as [L|L]; [easy|]. exfalso. unfold lift in H. rewrite check_spec in H; try easy. apply key_fits_2. exact L. }
    apply lift_inv in A10 as [A10 <-]. apply bind_panic in H as [H|(d & q11 & A11 & H)]; [|easy]. destruct (N.lt_ge_cases 65310 n) as [L|L]; [now left|]. right.
    unfold rd_encrypted in H. destruct e; [|now apply np_song_data in H]. apply bind_panic in H as [H|(key & q12 & A12 & H)]; [|now apply np_song_data in H]. split.
    + destruct (N.lt_ge_cases 65285 n) as [L2|L2]; [easy|]. exfalso. unfold lift in H. rewrite get_key_19 in H; [easy|]. now apply key_fits_19.
    + apply check_true in A10 as (m & VM & -> & ->); [|easy|easy|now apply key_fits_2]. exists m. split; [easy|]. now replace (pos + 6) with (pos + 4 + 2) by lia.
  - intros (n & N1 & HH & HP). apply has_app in HH as [H1 H2]. rewrite len_be_enc in H2. change (N.of_nat 4) with 4 in H2.
    unfold bind. rewrite (rd_be4_has 24 _ _ eq_refl H1). rewrite guard_ok by easy. rewrite (rd_be2_has n _ _ N1 H2). unfold lift, wmul.
    replace (24 * n <? 2 ^ 32) with true by lia. destruct HP as [HP|(HS & HL & HP)].
    + apply content_size_panic in HP. now rewrite HP.
    + rewrite (content_size_ok _ _ _ HS). rewrite guard_ok by lia. unfold tell. unfold rd_bytes. change (2 =? 0) with false. replace (pos + 4 + 2 + 2 <=? len buf) with true by lia.
      unfold seek_to. destruct HP as [HP|[HN (m & VM & HM)]].
      { unfold check_if_encrypted. now rewrite get_key_2_panic. }
      destruct (N.lt_ge_cases 65310 n) as [L|L]; [unfold check_if_encrypted; now rewrite get_key_2_panic|].
      replace (takeN 2 (dropN (pos + 4 + 2) buf)) with [key0 n; N.lxor m (key1 n)].
      2:{ replace (pos + 6) with (pos + 4 + 2) in HM by lia. apply rd_bytes_has in HM. unfold rd_bytes in HM. change (len [key0 n; N.lxor m (key1 n)]) with 2 in HM.
          change (2 =? 0) with false in HM. replace (pos + 4 + 2 + 2 <=? len buf) with true in HM by lia. congruence. }
      rewrite check_encrypted by (easy || now apply key_fits_2). unfold rd_encrypted, bind, lift. now rewrite get_key_19_panic.
Qed.
Lemma np_ecue_debug buf : bytes_ok buf -> len buf + 72 < 2 ^ 32 -> np buf (rd_ecue Debug).
Proof.
  intros HB HL. unfold rd_ecue. apply np_bind'; [apply np_header|intro h]. apply np_bind'; [apply np_plain|intro vs]. apply np_bind; [apply np_comment|].
  intros s pos pos' HC. apply comment_inv in HC as (n & _ & _ & -> & HN & _ & _ & HS & _); [|easy]. intro H.
  apply bind_panic in H as [H|(ws & q1 & A1 & H)]; [now apply np_plain in H|]. apply bind_panic in H as [H|(m & q2 & A2 & H)].
  - unfold lift in H. now rewrite trailing_size_ok in H by lia.
  - apply bind_panic in H as [H|(tr & q3 & A3 & H)]; [now apply np_bytes in H|easy].
Qed.
Lemma np_ecue_list_debug buf : bytes_ok buf -> len buf + 72 < 2 ^ 32 -> np buf (rd_ecue_list Debug).
Proof.
  intros HB HL. unfold rd_ecue_list. apply np_bind'; [apply np_list_type|intro]. do 2 (apply np_bind'; [apply np_be|intro]). apply np_bind'; [apply np_guard|intro].
  apply np_bind'; [|intro; apply np_ret]. now apply np_count, np_ecue_debug.
Qed.
Lemma bind_ret_panic {A B} (p : parser A) (f : A -> B) buf pos : (let* a <- p; ret (f a)) buf pos = Panic <-> p buf pos = Panic.
Proof. rewrite bind_panic. split; [intros [H|(a & q & _ & H)]; easy|now left]. Qed.
Lemma content_panic buf pos h : bytes_ok buf -> len buf + 72 < 2 ^ 32 -> (rd_content Debug h buf pos = Panic <-> size_panic buf pos h).
Proof.
  intros HB HL. unfold rd_content, size_panic. destruct (h_kind h); rewrite ?bind_ret_panic.
  all: try (split; [easy|easy]).
  - split; [intro H; now apply np_beat_grid in H|easy].
  - split; [intro H; now apply np_cue_list in H|easy].
  - split; [intro H; now apply np_ecue_list_debug in H|easy].
  - apply path_panic; [easy|lia].
  - apply vbr_panic.
  - now apply wave_panic_none.
  - now apply wave_panic_none.
  - now apply wave_panic_some.
  - now apply wave_panic_some.
  - now apply wave_panic_some.
  - now apply wave_panic_some.
  - now apply wave_panic_some.
  - now apply song_panic.
  - apply unknown_panic.
Qed.
Lemma section_panic buf pos : bytes_ok buf -> len buf + 72 < 2 ^ 32 ->
  (rd_section Debug buf pos = Panic <-> exists h, header_ok h /\ has buf pos (enc_header h) /\ size_panic buf (pos + 12) h).
Proof.
  intros HB HL. unfold rd_section. rewrite bind_panic. split.
  - intros [H|(h & q & H1 & H)]; [now apply np_header in H|]. apply bind_ret_panic in H. apply header_rw in H1 as (HO & HH & ->); [|easy].
    exists h. split; [easy|]. split; [easy|]. now apply content_panic.
  - intros (h & HO & HH & HP). right. exists h, (pos + 12). split; [now apply header_wr|]. apply bind_ret_panic. now apply content_panic.
Qed.
