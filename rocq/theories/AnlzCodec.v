(** * Sections read back as written *)
From Coq Require Import NArith ZArith List Bool Lia.
From Coq Require Import ZifyBool ZifyNat ZifyN.
From Verif Require Import Base BaseFacts Utf UtfFacts Str Schema SchemaFacts Xor XorFacts Anlz AnlzFacts AnlzSpec.
Import ListNotations.
Open Scope N_scope.
Ltac Zify.zify_post_hook ::= Z.div_mod_to_equations.

Lemma Ok_inj {A} (x y : A) : Ok x = Ok y -> x = y.
Proof. congruence. Qed.
Lemma has_plus buf p n bs : has buf (p + n) bs -> forall q, q = p + n -> has buf q bs.
Proof. now intros H q ->. Qed.
Lemma content_size_ok b h n : h_size h + n = h_total h -> content_size b h = Ok n.
Proof. intro H. unfold content_size, wsub. replace (h_size h <=? h_total h) with true by lia. f_equal. lia. Qed.
Lemma content_size_inv b h n : content_size b h = Ok n -> h_size h < 2 ^ 32 -> h_total h < 2 ^ 32 ->
  n < 2 ^ 32 /\ match b with Debug => h_size h + n = h_total h | Release => (h_size h + n) mod 2 ^ 32 = h_total h end.
Proof.
  unfold content_size, wsub. intros H HS HT. destruct (h_size h <=? h_total h) eqn:E.
  - injection H as <-. split; [lia|]. destruct b; [lia|]. replace (h_size h + (h_total h - h_size h)) with (h_total h) by lia.
    now apply N.mod_small.
  - destruct b; cbn [ovf] in H; [discriminate|]. injection H as <-.
    change (2 ^ 32) with 4294967296 in *. split; lia.
Qed.

(** ** Cues *)
Lemma cue_wr b c buf pos bs : cue_ok c -> enc_cue b c = Ok bs -> has buf pos bs -> rd_cue buf pos = Ok (c, pos + len bs).
Proof.
  intros [HH HF] HE HB. unfold enc_cue in HE. destruct (enc_fields b cue_fields (cue_values c)) as [vs| |] eqn:EV; [|easy|easy].
  cbn [res_bind] in HE. apply Ok_inj in HE as <-. apply has_app in HB as [B1 B2]. rewrite len_enc_header in B2. unfold rd_cue, bind.
  rewrite (header_wr _ _ _ HH B1). rewrite (plain_wr b cue_fields _ _ _ vs eq_refl HF EV B2). unfold ret. rewrite len_app, len_enc_header. destruct c.
  do 2 f_equal. lia.
Qed.
Lemma cue_rw b c buf pos pos' :
  bytes_ok buf -> rd_cue buf pos = Ok (c, pos') -> cue_ok c /\ exists bs, enc_cue b c = Ok bs /\ has buf pos bs /\ pos' = pos + len bs.
Proof.
  intros HB HR. unfold rd_cue in HR. apply bind_inv in HR as (h & p1 & H1 & HR). apply bind_inv in HR as (vs & p2 & H2 & HR).
  apply ret_inv in HR as [<- <-]. apply header_rw in H1 as (HO & HH & ->); [|easy]. pose proof (has_len _ _ _ HH) as HL. rewrite len_enc_header in HL.
  apply (plain_rw b) in H2 as (PO & vb & EV & HV & ->); [|reflexivity|easy|lia]. split; [easy|]. unfold enc_cue. cbn [cue_header cue_values]. rewrite EV.
  eexists. split; [reflexivity|]. split; [apply has_app; split; [easy|now rewrite len_enc_header]|]. rewrite len_app, len_enc_header. lia.
Qed.

(** ** Extended cues *)
Definition ecue_bytes (h : header) (vs ws tr : list N) (s : list N) : list N := enc_header h ++ vs ++ comment_bytes s ++ ws ++ tr.
Lemma trailing_size_ok b h s : 68 + comment_size s < 2 ^ 32 -> trailing_size b h s = Ok (h_total h - (68 + comment_size s)).
Proof.
  intro H. unfold trailing_size. rewrite byte_len_ok by lia. cbn [res_bind]. unfold wadd. replace (68 + comment_size s <? 2 ^ 32) with true by lia. easy.
Qed.
Lemma ecue_wr b c buf pos bs : ecue_ok c -> enc_ecue b c = Ok bs -> has buf pos bs -> rd_ecue b buf pos = Ok (c, pos + len bs).
Proof.
  intros (HH & HF & HM & HU & HN & HL & HT & HS) HE HB. unfold enc_ecue in HE.
  destruct (enc_fields b ecue_fields (ec_values c)) as [vs| |] eqn:EV; [|easy|easy]. cbn [res_bind] in HE.
  rewrite enc_comment_ok in HE by lia. cbn [res_bind] in HE.
  destruct (enc_fields b ecue_more_fields (ec_more c)) as [ws| |] eqn:EW; [|easy|easy]. cbn [res_bind] in HE.
  apply Ok_inj in HE as <-.
  apply has_app in HB as [B1 HB]. rewrite len_enc_header in HB. apply has_app in HB as [B2 HB]. apply has_app in HB as [B3 HB].
  apply has_app in HB as [B4 B5]. unfold rd_ecue, bind. rewrite (header_wr _ _ _ HH B1).
  rewrite (plain_wr b ecue_fields _ _ _ vs eq_refl HF EV B2).
  rewrite (comment_wr _ _ _ HU ltac:(lia) B3), (trim_end0_id _ HN).
  rewrite (plain_wr b ecue_more_fields _ _ _ ws eq_refl HM EW B4). unfold lift. rewrite trailing_size_ok by easy. rewrite <- HS.
  rewrite (rd_bytes_has _ _ _ B5). unfold ret. rewrite !len_app, len_enc_header. destruct c as [h0 v0 s0 w0 t0]. do 2 f_equal. cbn [ec_trailing ec_comment]. lia.
Qed.

(** What a comment that was read says about the stored bytes; [n] is the stored length. *)
Lemma comment_inv s buf pos pos' :
  bytes_ok buf -> rd_comment buf pos = Ok (s, pos') ->
  exists n, n < 2 ^ 32 /\ has buf pos (be_enc 4 n) /\ pos' = pos + 4 + n /\ pos' <= len buf /\ ustr_ok s /\ ~ ends_nul s /\
    comment_size s <= n + 2 /\ (comment_size s = n -> has buf pos (comment_bytes s)).
Proof.
  intros HB HR. unfold rd_comment in HR. apply bind_inv in HR as (n & p1 & H1 & HR). apply rd_be4_inv in H1 as (N1 & N2 & ->); [|easy].
  pose proof (has_len _ _ _ N2) as L2. rewrite len_be_enc in L2. cbn [N.of_nat] in L2.
  exists n. split; [easy|]. split; [easy|]. destruct (n =? 0) eqn:EN.
  - apply ret_inv in HR as [<- <-]. assert (n = 0) as -> by lia. split; [lia|]. split; [lia|]. split; [constructor|].
    split; [intros (r & E); now destruct r|]. split; [cbn; lia|]. intros _. unfold comment_bytes. cbn [comment_size]. now rewrite app_nil_r.
  - apply bind_inv in HR as (bs & p2 & H2 & HR). apply rd_bytes_inv in H2 as (LB & -> & [->|HH]); [lia|].
    destruct (utf16_dec (be_units bs)) as [t|] eqn:ED; [|easy]. apply ret_inv in HR as [<- <-].
    pose proof (has_bytes_ok _ _ _ HB HH) as HBO. pose proof (has_len _ _ _ HH) as LH.
    pose proof (utf16_enc_dec _ _ (be_units_u16 _ HBO) ED) as [EU TU].
    destruct (trim_end0_zeros t) as (k & EK). set (s := trim_end0 t) in *.
    assert (utf16_enc (repeat 0 k) = repeat 0 k) as EZ by (clear; induction k as [|k IH]; [easy|cbn; now rewrite <- IH at 2]).
    assert (be_units bs = utf16_enc s ++ repeat 0 k) as EB by (rewrite <- EU, EK, utf16_enc_app, EZ; easy).
    assert (len (be_units bs) = len (utf16_enc s) + N.of_nat k) as EL.
    { rewrite EB, len_app. f_equal. unfold len. now rewrite repeat_length. }
    rewrite len_be_units in EL. split; [lia|]. split; [lia|]. split; [now apply trim_end0_ok|]. split; [apply trim_end0_not|].
    split; [unfold comment_size; destruct s; lia|]. intro EC. unfold comment_bytes. rewrite EC. apply has_app. split; [easy|].
    rewrite len_be_enc. unfold comment_size in EC. destruct s as [|c s'] eqn:ES; [lia|]. rewrite <- ES in *.
    assert (k = 1%nat) as -> by lia. assert (bs = flat_map (be_enc 2) (utf16_enc s) ++ [0; 0]) as <-; [|exact HH].
    rewrite <- (be_units_inv bs) by (easy || lia). rewrite EB, flat_map_app. reflexivity.
Qed.

(** The end of an extended cue depends on the stored length [n] of the comment. *)
Lemma ecue_inv b c buf pos pos' :
  bytes_ok buf -> rd_ecue b buf pos = Ok (c, pos') ->
  exists n, n < 2 ^ 32 /\ has buf (pos + 40) (be_enc 4 n) /\ pos + 68 + n <= len buf /\ comment_size (ec_comment c) <= n + 2 /\
    has buf pos (enc_header (ec_header c)) /\ header_ok (ec_header c) /\ ustr_ok (ec_comment c) /\ ~ ends_nul (ec_comment c) /\
    (n + 70 < 2 ^ 32 ->
      pos' = pos + 68 + n + (h_total (ec_header c) - (68 + comment_size (ec_comment c))) /\ pos' <= len buf /\
      (comment_size (ec_comment c) = n ->
       ecue_ok c /\ exists bs, enc_ecue b c = Ok bs /\ has buf pos bs /\ pos' = pos + len bs)).
Proof.
  intros HB HR. unfold rd_ecue in HR. apply bind_inv in HR as (h & p1 & H1 & HR). apply bind_inv in HR as (vs & p2 & H2 & HR).
  apply bind_inv in HR as (s & p3 & H3 & HR). apply bind_inv in HR as (ws & p4 & H4 & HR). apply bind_inv in HR as (m & p5 & H5 & HR).
  apply bind_inv in HR as (tr & p6 & H6 & HR). apply ret_inv in HR as [<- <-]. cbn [ec_header ec_comment].
  apply header_rw in H1 as (HO & HH & ->); [|easy]. pose proof (has_len _ _ _ HH) as L1. rewrite len_enc_header in L1.
  apply (plain_rw b) in H2 as (PV & vb & EV & HV & ->); [|reflexivity|easy|lia].
  assert (len vb = 28) as LV by now apply (fields_enc_len b no_dstr ecue_fields vs vb).
  apply comment_inv in H3 as (n & N1 & N2 & -> & N3 & HU & HN & HC & HK); [|easy].
  apply (plain_rw b) in H4 as (PW & wb & EW & HW & ->); [|reflexivity|easy|lia].
  assert (len wb = 24) as LW by now apply (fields_enc_len b no_dstr ecue_more_fields ws wb).
  rewrite LV, LW in *. pose proof (has_len _ _ _ HW) as L4. rewrite LW in L4.
  exists n. split; [easy|]. split; [now replace (pos + 40) with (pos + 12 + 28) by lia|]. split; [lia|]. split; [easy|]. split; [easy|].
  split; [easy|]. split; [easy|]. split; [easy|]. intro NL. unfold lift in H5. rewrite trailing_size_ok in H5 by lia.
  assert (m = h_total h - (68 + comment_size s) /\ p5 = pos + 12 + 28 + 4 + n + 24) as [-> ->] by (split; congruence). clear H5.
  apply rd_bytes_inv in H6 as (LT & -> & HT). split; [lia|].
  assert (has buf (pos + 12 + 28 + 4 + n + 24) tr) as HT'.
  { destruct HT as [HT|HT]; [|easy]. rewrite HT in LT. apply len_0_nil in LT. subst tr. apply has_nil. lia. }
  pose proof (has_len _ _ _ HT') as L6. rewrite LT in L6. split; [lia|]. intro EC. split.
  - unfold ecue_ok. cbn [ec_header ec_values ec_comment ec_more ec_trailing]. repeat (split; [easy|]). split; [lia|]. split; [|easy].
    eapply has_bytes_ok; eassumption.
  - unfold enc_ecue. cbn [ec_header ec_values ec_comment ec_more ec_trailing]. rewrite EV. cbn [res_bind]. rewrite enc_comment_ok by lia.
    cbn [res_bind]. rewrite EW. cbn [res_bind]. eexists. split; [reflexivity|].
    assert (len (comment_bytes s) = 4 + n) as LC by (rewrite len_comment_bytes; lia). split.
    + apply has_app. rewrite len_enc_header. split; [easy|]. apply has_app. rewrite LV. split; [easy|]. apply has_app. rewrite LC.
      split; [now apply HK|]. apply has_app. rewrite LW. split; [now replace (pos + 12 + 28 + (4 + n)) with (pos + 12 + 28 + 4 + n) by lia|].
      now replace (pos + 12 + 28 + (4 + n) + 24) with (pos + 12 + 28 + 4 + n + 24) by lia.
    + rewrite !len_app, len_enc_header, LV, LC, LW, LT. lia.
Qed.

(** ** Waveforms *)
Lemma wave_fields_wf w : fields_wfb (wave_fields w) = true.
Proof. now destruct w. Qed.
Lemma wave_columns_size b w vs : plain_ok (wave_fields w) vs -> exists bs, enc_fields b (wave_fields w) vs = Ok bs /\ len bs = column_size w.
Proof. intro H. destruct (plain_size b (wave_fields w) vs) as (bs & E & L); [now destruct w|easy|]. exists bs. split; [easy|]. rewrite L. now destruct w. Qed.
Lemma guard_ok e buf pos (c : bool) : c = true -> guard c e buf pos = Ok (tt, pos).
Proof. now intros ->. Qed.
Lemma len_mod32 {A} (l : list A) : len l < 2 ^ 32 -> len l mod 2 ^ 32 = len l.
Proof. apply N.mod_small. Qed.

Lemma wave_wr b h f buf pos bs :
  wave_ok f -> header_ok h -> h_size h + column_size (wf_type f) * len (wf_data f) = h_total h ->
  enc_wave b f = Ok bs -> has buf pos bs -> rd_wave b h (wf_type f) buf pos = Ok (f, pos + len bs).
Proof.
  intros [HU HD] (_ & HS & HT) HZ HE HB. destruct f as [w u d]. cbn [wf_type wf_unknown wf_data] in *. unfold enc_wave in HE. cbn [wf_type wf_unknown wf_data] in HE.
  destruct (enc_all (enc_fields b (wave_fields w)) d) as [db| |] eqn:ED; [|easy|easy]. cbn [res_bind] in HE. apply Ok_inj in HE as <-.
  assert (len d < 2 ^ 32) as LD by (assert (1 <= column_size w) by (destruct w; cbn; lia); nia). rewrite (len_mod32 d LD) in *.
  apply has_app in HB as [B1 HB]. apply has_app in HB as [B2 HB]. apply has_app in HB as [B3 B4]. unfold rd_wave.
  eapply bind_ok with (a := len d) (pos' := pos + (match wave_entry w with Some _ => 4 | None => 0 end) + 4).
  { unfold rd_wave_count. destruct (wave_entry w) as [e|] eqn:EE.
    - rewrite len_be_enc in B2. change (N.of_nat 4) with 4 in B2. assert (e = column_size w /\ e < 7) as [-> E7] by (destruct w; cbn in EE |- *; try discriminate; injection EE as <-; split; lia).
      unfold bind. rewrite (rd_be4_has (column_size w) _ _ ltac:(lia) B1). rewrite guard_ok by lia. rewrite (rd_be4_has _ _ _ LD B2). unfold lift, wmul.
      replace (column_size w * len d <? 2 ^ 32) with true by lia. rewrite (content_size_ok b h _ HZ). rewrite guard_ok by lia. easy.
    - rewrite (@len_nil N), N.add_0_r in B2. assert (column_size w = 1) as EC by (destruct w; easy). rewrite EC, N.mul_1_l in HZ.
      unfold bind. rewrite (rd_be4_has _ _ _ LD B2). unfold lift. rewrite (content_size_ok b h _ HZ). rewrite guard_ok by lia.
      unfold ret. do 2 f_equal. lia. }
  set (p2 := pos + _ + 4) in *.
  assert (has buf p2 (match u with Some u => be_enc 4 u | None => [] end)) as B3'.
  { eapply has_plus; [exact B3|]. unfold p2. destruct (wave_entry w); rewrite ?len_be_enc, ?(@len_nil N); cbn [N.of_nat]; lia. }
  assert (has buf (p2 + match u with Some u => 4 | None => 0 end) db) as B4'.
  { eapply has_plus; [exact B4|]. unfold p2. destruct (wave_entry w), u; rewrite ?len_be_enc, ?(@len_nil N); cbn [N.of_nat]; lia. }
  eapply bind_ok with (a := u) (pos' := p2 + match u with Some u => 4 | None => 0 end).
  { unfold rd_wave_unknown. destruct w; cbn [wave_unknown]; destruct u as [u|]; try easy; unfold bind;
      try (rewrite (rd_be4_has u _ _ ltac:(lia) B3')); try (rewrite guard_ok by lia); try easy. now rewrite N.add_0_r. }
  eapply bind_ok.
  { unfold len at 1. rewrite Nat2N.id. eapply (rd_count_res_has (enc_fields b (wave_fields w)) _ (plain_ok (wave_fields w))); try eassumption.
    intros v q vb HV EV HVB. now apply (plain_wr b _ _ _ _ vb (wave_fields_wf w)). }
  unfold ret. do 2 f_equal. unfold p2. rewrite !len_app, len_be_enc. destruct (wave_entry w), u; rewrite ?len_be_enc, ?(@len_nil N); cbn [N.of_nat]; lia.
Qed.
Lemma lift_inv {A} (r : res A) buf pos a pos' : lift r buf pos = Ok (a, pos') -> r = Ok a /\ pos = pos'.
Proof. unfold lift. destruct r; [|easy|easy]. intro H. split; congruence. Qed.
Lemma wave_rw b h w f buf pos pos' :
  bytes_ok buf -> header_ok h -> pos <= len buf -> rd_wave b h w buf pos = Ok (f, pos') ->
  wf_type f = w /\ wave_ok f /\ len (wf_data f) < 2 ^ 32 /\
  (exists n, content_size b h = Ok n /\ match b with Debug => n = column_size w * len (wf_data f) | Release => n = (column_size w * len (wf_data f)) mod 2 ^ 32 end) /\
  exists bs, enc_wave b f = Ok bs /\ has buf pos bs /\ pos' = pos + len bs.
Proof.
  intros HB HH HP HR. unfold rd_wave in HR. apply bind_inv in HR as (n & p1 & H1 & HR). apply bind_inv in HR as (u & p2 & H2 & HR).
  apply bind_inv in HR as (d & p3 & H3 & HR). apply ret_inv in HR as [<- <-]. cbn [wf_type wf_data]. split; [easy|].
  assert (n < 2 ^ 32 /\ (exists m, content_size b h = Ok m /\ match b with Debug => m = column_size w * n | Release => m = (column_size w * n) mod 2 ^ 32 end) /\
    has buf pos ((match wave_entry w with Some e => be_enc 4 e | None => [] end) ++ be_enc 4 n) /\ p1 = pos + (match wave_entry w with Some _ => 8 | None => 4 end))
    as (NL & CS & HN & ->).
  { unfold rd_wave_count in H1. destruct (wave_entry w) as [e|] eqn:EE.
    - assert (e = column_size w) as -> by (destruct w; cbn in EE |- *; congruence).
      apply bind_inv in H1 as (eb & q1 & A1 & H1). apply bind_inv in H1 as (x & q2 & A2 & H1). apply guard_inv in A2 as [G <-].
      apply bind_inv in H1 as (n' & q3 & A3 & H1). apply bind_inv in H1 as (m & q4 & A4 & H1). apply bind_inv in H1 as (cs & q5 & A5 & H1).
      apply bind_inv in H1 as (y & q6 & A6 & H1). apply guard_inv in A6 as [G2 <-]. apply ret_inv in H1 as [<- <-].
      apply lift_inv in A4 as [A4 <-]. apply lift_inv in A5 as [A5 <-].
      apply rd_be4_inv in A1 as (E1 & E2 & ->); [|easy]. apply rd_be4_inv in A3 as (E3 & E4 & ->); [|easy].
      assert (eb = column_size w) as -> by lia. split; [easy|]. split.
      + exists cs. split; [easy|]. assert (m = cs) as <- by lia. unfold wmul in A4. destruct (_ <? 2 ^ 32) eqn:EL.
        * apply Ok_inj in A4 as <-. destruct b; [easy|]. rewrite N.mod_small; [easy|lia].
        * destruct b; [discriminate|]. cbn [ovf] in A4. now apply Ok_inj in A4.
      + split; [|lia]. apply has_app. split; [easy|now rewrite len_be_enc].
    - assert (column_size w = 1) as EC by (destruct w; easy). rewrite EC.
      apply bind_inv in H1 as (n' & q1 & A1 & H1). apply bind_inv in H1 as (cs & q2 & A2 & H1). apply bind_inv in H1 as (x & q3 & A3 & H1).
      apply guard_inv in A3 as [G <-]. apply ret_inv in H1 as [<- <-]. apply lift_inv in A2 as [A2 <-].
      apply rd_be4_inv in A1 as (E1 & E2 & ->); [|easy]. split; [easy|]. split; [|easy].
      exists cs. split; [easy|]. assert (n' = cs) as <- by lia. destruct b; [lia|]. rewrite N.mod_small; lia. }
  pose proof (has_len _ _ _ HN) as LN. rewrite len_app, len_be_enc in LN. cbn [N.of_nat] in LN.
  assert (has buf (pos + match wave_entry w with Some _ => 8 | None => 4 end) (match u with Some u => be_enc 4 u | None => [] end) /\
    match w, u with
    | W3Preview, None => True
    | (WDetail | W3Detail), Some u => u = 0x00960000
    | (WPreview | WTiny | WColorPreview | WColorDetail), Some u => u < 2 ^ 32
    | _, _ => False
    end /\ p2 = pos + (match wave_entry w with Some _ => 8 | None => 4 end) + match u with Some u => 4 | None => 0 end) as (HU & UO & ->).
  { unfold rd_wave_unknown in H2. destruct (wave_unknown w) eqn:EU.
    - apply ret_inv in H2 as [<- <-]. destruct w; try discriminate. split; [|split; [easy|now rewrite N.add_0_r]]. apply has_nil. cbn [wave_entry] in *.
      rewrite len_be_enc in LN. cbn [N.of_nat] in LN. lia.
    - apply bind_inv in H2 as (u' & q1 & A1 & H2). apply ret_inv in H2 as [<- <-]. apply rd_be4_inv in A1 as (E1 & E2 & ->); [|easy].
      split; [easy|]. split; [now destruct w|easy].
    - apply bind_inv in H2 as (u' & q1 & A1 & H2). apply bind_inv in H2 as (x & q2 & A2 & H2). apply guard_inv in A2 as [G <-].
      apply ret_inv in H2 as [<- <-]. apply rd_be4_inv in A1 as (E1 & E2 & ->); [|easy]. split; [easy|].
      assert (u' = v) as -> by lia. split; [destruct w; try discriminate; injection EU as <-; easy|easy]. }
  pose proof (has_len _ _ _ HU) as LU.
  assert (len (match u with Some u => be_enc 4 u | None => [] end) = match u with Some _ => 4 | None => 0 end) as EU by (destruct u; [apply len_be_enc|easy]).
  rewrite EU in LU.
  apply (rd_count_res_inv (enc_fields b (wave_fields w)) _ (plain_ok (wave_fields w))) in H3 as (LD & PD & db & ED & HD & ->); [| |lia].
  2:{ intros v q q' HQ HV. eapply plain_rw; try eassumption. apply wave_fields_wf. }
  assert (len d = n) as LDN by (unfold len; rewrite LD; lia). rewrite LDN. split; [now split|]. split; [easy|]. split; [easy|].
  unfold enc_wave. cbn [wf_type wf_unknown wf_data]. rewrite ED. cbn [res_bind]. rewrite LDN, (N.mod_small n) by easy.
  eexists. split; [reflexivity|]. split.
  - rewrite app_assoc. apply has_app. split; [easy|]. rewrite len_app, len_be_enc.
    assert (forall q, q = pos + match wave_entry w with Some _ => 8 | None => 4 end -> has buf q ((match u with Some u => be_enc 4 u | None => [] end) ++ db)) as HQ.
    { intros q ->. apply has_app. now rewrite EU. }
    apply HQ. destruct (wave_entry w); rewrite ?len_be_enc, ?(@len_nil N); cbn [N.of_nat]; lia.
  - rewrite !len_app, len_be_enc, EU. destruct (wave_entry w); rewrite ?len_be_enc, ?(@len_nil N); cbn [N.of_nat]; lia.
Qed.
