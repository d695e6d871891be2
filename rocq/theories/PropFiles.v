(** * Properties C69 to C71: where analysis files and settings files store things; columns of waveforms *)
From Coq Require Import NArith ZArith List Bool String Lia.
From Coq Require Import ZifyBool ZifyNat ZifyN.
From Verif Require Import Base BaseFacts Schema Xor Anlz AnlzSpec AnlzFacts AnlzCodec AnlzSong AnlzSections AnlzFile Crc CrcFacts Setting SettingFacts SettingSpec Layout LayoutAnlz LayoutSetting Columns PropAnlz PropSetting.
Import ListNotations.
Open Scope N_scope.

(** C69: the layout of sections and files is that of LayoutAnlz.v. *)
Theorem c69_section : forall b buf pos s p, bytes_ok buf -> len buf < 2 ^ 32 -> rd_section b buf pos = Ok (s, p) -> section_at buf pos s p.
Proof. intros b buf pos s p HB HL H. now apply section_read in H. Qed.
Print Assumptions c69_section.
Theorem c69_file : forall b buf pos a p, bytes_ok buf -> len buf + 12 < 2 ^ 32 -> rd_anlz b buf pos = Ok (a, p) -> file_at buf pos a p.
Proof. exact file_read. Qed.
Print Assumptions c69_file.
Theorem c69_section_written : forall b s bs buf pos, section_ok b s -> enc_section b s = Ok bs -> has buf pos bs -> bytes_ok buf -> len buf < 2 ^ 32 ->
  section_at buf pos s (pos + len bs).
Proof. intros b s bs buf pos HS HE HH HB HL. apply (c39_section b s buf pos bs HS HE) in HH. now apply c69_section in HH. Qed.
Print Assumptions c69_section_written.
Theorem c69_file_written : forall b a bs buf pos, anlz_ok b a -> enc_anlz b a = Ok bs -> has buf pos bs -> bytes_ok buf -> len buf + 12 < 2 ^ 32 ->
  file_at buf pos a (pos + len bs).
Proof.
  intros b a bs buf pos HS HE HH HB HL. pose proof (has_len _ _ _ HH) as L. apply (c39_file b a bs buf pos HS HE) in HH; [now apply c69_file in HH|].
  eapply N.le_lt_trans; [exact L|]. eapply N.lt_trans with (2 ^ 32); [|reflexivity]. eapply N.le_lt_trans; [|exact HL]. apply N.le_add_r.
Qed.
Print Assumptions c69_file_written.
(** A path of two characters, behind one other byte; a waveform preview of two columns; a section of unknown kind. *)
Definition c69_buf : list N := [9] ++ letters "PPTH" ++ [0; 0; 0; 16; 0; 0; 0; 22; 0; 0; 0; 6; 0; 65; 0; 66; 0; 0] ++
  letters "PWAV" ++ [0; 0; 0; 20; 0; 0; 0; 22; 0; 0; 0; 2; 0; 1; 0; 0; 0x25; 0x43] ++ letters "QQQQ" ++ [0; 0; 0; 13; 0; 0; 0; 15; 1; 2; 3].
Example c69_example : bytes_ok c69_buf /\ len c69_buf < 2 ^ 32 /\
  rd_section Debug c69_buf 1 = Ok ({| se_header := {| h_kind := KPath; h_size := 16; h_total := 22 |}; se_content := CPath [65; 66] |}, 23) /\
  rd_section Debug c69_buf 23 = Ok ({| se_header := {| h_kind := KWaveformPreview; h_size := 20; h_total := 22 |};
    se_content := CWave {| wf_type := WPreview; wf_unknown := Some 0x10000; wf_data := [[VInt 0x25]; [VInt 0x43]] |} |}, 45) /\
  rd_section Debug c69_buf 45 = Ok ({| se_header := {| h_kind := KUnknown 0x51515151; h_size := 13; h_total := 15 |}; se_content := CUnknown [1] [2; 3] |}, 60).
Proof. split; [repeat constructor|]. vm_compute. repeat split. Qed.
(** The file of C39, which has one section of each kind, meets the hypotheses. *)
Example c69_example_file : match enc_anlz Debug c39_anlz with Ok bs => forallb (fun x => x <? 256) bs = true /\ len bs + 12 < 2 ^ 32 /\ rd_anlz Debug bs 0 = Ok (c39_anlz, len bs) | _ => False end.
Proof. vm_compute. repeat split. Qed.

(** C70: the layout of settings files is that of LayoutSetting.v. *)
Theorem c70_read : forall t buf s p, bytes_ok buf -> rd_setting t buf 0 = Ok (s, p) -> sd_type (st_data s) = t /\ settings_layout buf s /\ p = 108 + size_of t.
Proof.
  intros t buf s p HB H. apply setting_inv in H as (-> & d & c & T & D & Z1 & L1 & Z2 & L2 & Z3 & L3 & E & C & H0 & H1 & H2 & H3 & H4 & H5 & H6 & H7); [|easy].
  rewrite N.add_0_l in *. subst t. split; [reflexivity|]. split; [|reflexivity]. now apply (setting_layout buf s d c).
Qed.
Print Assumptions c70_read.
Theorem c70_written : forall s bs rest, sdata_ok (st_data s) -> enc_setting s = Ok bs -> settings_layout (bs ++ rest) s /\ len bs = 108 + size_of (sd_type (st_data s)).
Proof.
  intros s bs rest D H. destruct (write_total s D) as [(L1 & L2 & L3 & _)|[_ E]]; [|now rewrite H in E]. assert (setting_ok s) as OK by easy.
  destruct (enc_setting_front s OK) as (f & F & E). rewrite H in E. apply Ok_eq in E. destruct (enc_front_ok s OK) as (d & E1 & LD & _ & F'). rewrite F in F'. apply Ok_eq in F'.
  set (t := sd_type (st_data s)) in *. assert (data_size t = size_of t) as DS by reflexivity.
  assert (has (bs ++ rest) 0 bs) as HH by (exists [], rest; now split). remember (bs ++ rest) as buf eqn:EB. clear EB. clear H F. subst bs f.
  assert (forall x, len x <= 31 -> exists z, pad_to 32 (x ++ [0]) = (x ++ [0]) ++ z /\ len (pad_to 32 (x ++ [0])) = 32) as HP.
  { intros x LX. eexists. split; [reflexivity|now apply len_pad32]. }
  destruct (HP _ L1) as (z1 & P1 & Q1). destruct (HP _ L2) as (z2 & P2 & Q2). destruct (HP _ L3) as (z3 & P3 & Q3).
  split; [|rewrite !len_app, Q1, Q2, Q3, LD, !len_le_enc, DS; clear; lia].
  rewrite <- !app_assoc in HH. repeat match goal with H : has _ _ (_ ++ _) |- _ => apply has_app in H as [? H]; rewrite ?len_le_enc, ?Q1, ?Q2, ?Q3, ?LD in H end.
  change (N.of_nat 4) with 4 in *. change (N.of_nat 2) with 2 in *. rewrite P1, P2, P3 in *.
  repeat match goal with H : has _ _ ((_ ++ [0]) ++ _) |- _ => apply has_app in H as [H _] end. rewrite DS in *.
  change (0 + 4) with 4 in *. change (4 + 32) with 36 in *. change (36 + 32) with 68 in *. change (68 + 32) with 100 in *. change (100 + 4) with 104 in *.
  eapply (setting_layout _ s d); try eassumption. fold t. replace (106 + size_of t) with (104 + size_of t + 2) by (clear; lia). assumption.
Qed.
Print Assumptions c70_written.
(** Each byte has at most one meaning. *)
Theorem c70_meanings : forall t q, In q (option_table t) -> NoDup (map fst (snd q)) /\ NoDup (map snd (snd q)).
Proof.
  assert (forall l : list N, (fix nd l := match l with [] => true | x :: r => negb (existsb (N.eqb x) r) && nd r end) l = true -> NoDup l) as ND.
  { induction l as [|x l IH]; intro H; constructor; apply andb_true_iff in H as [H1 H2]; [|now apply IH]. intro I. apply negb_true_iff in H1.
    assert (existsb (N.eqb x) l = true); [apply existsb_exists; exists x; now rewrite N.eqb_refl|congruence]. }
  assert (forall l : list string, (fix nd l := match l with [] => true | x :: r => negb (existsb (String.eqb x) r) && nd r end) l = true -> NoDup l) as NS.
  { induction l as [|x l IH]; intro H; constructor; apply andb_true_iff in H as [H1 H2]; [|now apply IH]. intro I. apply negb_true_iff in H1.
    assert (existsb (String.eqb x) l = true); [apply existsb_exists; exists x; now rewrite String.eqb_refl|congruence]. }
  intros t q H. destruct t; cbn [option_table In] in H; repeat (destruct H as [<-|H]; [split; [apply ND|apply NS]; vm_compute; reflexivity|]); destruct H.
Qed.
Print Assumptions c70_meanings.
(** A mixer file with French menus has 130 at offset 116. *)
Example c70_example : exists bs, enc_setting (default_setting TMy) = Ok bs /\ exists s p, rd_setting TMy (write_at bs 116 [130]) 0 = Ok (s, p) /\
  In "French"%string (options (sd_vals (st_data s))) /\ ~ In "English"%string (options (sd_vals (st_data s))).
Proof.
  eexists. split; [vm_compute; reflexivity|]. eexists. eexists. split; [vm_compute; reflexivity|]. split; vm_compute; [tauto|].
  intro H. repeat (destruct H as [H|H]; [discriminate H|]). destruct H.
Qed.

(** C71: columns. *)
Lemma getN_byte buf i x : bytes_ok buf -> getN buf i = Some x -> x < 256.
Proof. intros HB G. unfold getN in G. apply nth_error_In in G. unfold bytes_ok in HB. rewrite Forall_forall in HB. now apply HB. Qed.
Lemma one_byte b buf pos s p f i vs : bytes_ok buf -> len buf < 2 ^ 32 -> rd_section b buf pos = Ok (s, p) -> se_content s = CWave f ->
  wf_type f = WPreview \/ wf_type f = WTiny \/ wf_type f = WDetail -> getN (wf_data f) i = Some vs ->
  exists x, numbers vs = [x] /\ getN buf (pos + wave_data (wf_type f) + i) = Some x.
Proof.
  intros HB HL H E T G. apply c69_section in H as (_ & H); [|assumption|assumption]. rewrite E in H.
  assert (wave_at buf pos (wf_type f) f p) as W by (revert H; cbn [content_at]; destruct (h_kind (se_header s)); intro H; try contradiction; destruct H as (T' & H); rewrite T'; now split).
  destruct W as (_ & _ & _ & _ & W & _). specialize (W i vs G). replace (wave_width (wf_type f)) with 1 in W by (destruct T as [T|[T|T]]; now rewrite T).
  rewrite N.mul_1_l in W. assert (has buf (pos + wave_data (wf_type f) + i) (numbers vs) /\ len (numbers vs) = 1) as (HH & L).
  { destruct T as [T|[T|T]]; rewrite T in *; exact W. }
  destruct (numbers vs) as [|x [|y l]]; [discriminate| |exfalso; rewrite !len_cons in L; lia]. exists x. split; [reflexivity|]. now apply has_cons in HH.
Qed.

(** Columns and values of their components correspond to each other. *)
Theorem c71_components : forall ws, In ws [preview_widths; tiny_widths; color_widths] -> forall vs, Forall2 (fun w v => v < 2 ^ w) ws vs ->
  exists x, x < 2 ^ bits ws /\ (forall i, (i < List.length ws)%nat -> bf_get ws i x = nth i vs 0) /\
    forall y, y < 2 ^ bits ws -> (forall i, (i < List.length ws)%nat -> bf_get ws i y = nth i vs 0) -> y = x.
Proof.
  intros ws _ vs HV. destruct (bf_any ws vs HV) as (x & X1 & X2). exists x. split; [exact X1|]. split; [exact X2|].
  intros y Y1 Y2. apply (bf_inj ws); [assumption|assumption|]. intros i L. now rewrite X2, Y2.
Qed.
Print Assumptions c71_components.
(** Setters set one component and keep the others, and panic if the value does not fit. *)
Theorem c71_set : forall ws i v x, In ws [preview_widths; tiny_widths; color_widths] -> (i < List.length ws)%nat -> x < 2 ^ bits ws ->
  (v < 2 ^ nth i ws 0 -> exists y, bf_set ws i v x = Ok y /\ y < 2 ^ bits ws /\ forall j, (j < List.length ws)%nat -> bf_get ws j y = if Nat.eqb j i then v else bf_get ws j x) /\
  (2 ^ nth i ws 0 <= v -> bf_set ws i v x = Panic).
Proof. intros ws i v x _. apply bf_set_get. Qed.
Print Assumptions c71_set.
(** A column of a preview or detail section: whiteness in the upper 3 bits, height in the lower 5. *)
Theorem c71_preview : forall h w, h < 32 -> w < 8 -> preview_height (32 * w + h) = h /\ preview_whiteness (32 * w + h) = w.
Proof.
  intros h w HH HW. unfold preview_height, preview_whiteness, preview_widths. cbn [bf_get]. change (2 ^ 5) with 32. change (2 ^ 3) with 8.
  rewrite N.add_comm, N.mul_comm, N.mod_add, N.div_add, (N.mod_small h), (N.div_small h), N.add_0_l by (discriminate || assumption). split; [reflexivity|]. now apply N.mod_small.
Qed.
Print Assumptions c71_preview.
(** In a file: byte [20 + i] of the section, or [24 + i] in a detail section. *)
Theorem c71_preview_in_file : forall b buf pos s p f i vs, bytes_ok buf -> len buf < 2 ^ 32 -> rd_section b buf pos = Ok (s, p) -> se_content s = CWave f ->
  wf_type f = WPreview \/ wf_type f = WDetail -> getN (wf_data f) i = Some vs ->
  exists x, numbers vs = [x] /\ getN buf (pos + (match wf_type f with WPreview => 20 | _ => 24 end) + i) = Some x /\
    x = 32 * preview_whiteness x + preview_height x /\ preview_height x < 32 /\ preview_whiteness x < 8.
Proof.
  intros b buf pos s p f i vs HB HL H E T G. destruct (one_byte b buf pos s p f i vs HB HL H E) as (x & N1 & G1); [tauto|assumption|].
  exists x. split; [exact N1|]. split; [destruct T as [T|T]; rewrite T in *; exact G1|].
  pose proof (getN_byte _ _ _ HB G1) as HX. unfold preview_height, preview_whiteness, preview_widths. cbn [bf_get]. change (2 ^ 5) with 32. change (2 ^ 3) with 8.
  clear -HX. split; [|split]; lia.
Qed.
Print Assumptions c71_preview_in_file.
(** A column of a tiny preview: by the documentation of the format its height is in the lower 4 bits. The code takes the upper 4, so that
    what it shows as height is always 0. *)
Theorem c71_tiny_refuted : forall h, h < 16 -> tiny_height h = 0.
Proof. intros h H. unfold tiny_height, tiny_widths. cbn [bf_get]. change (2 ^ 4) with 16. now rewrite N.div_small. Qed.
Print Assumptions c71_tiny_refuted.
(** What the code takes as height is the upper half of byte [20 + i] of the section. *)
Theorem c71_tiny_in_file : forall b buf pos s p f i vs, bytes_ok buf -> len buf < 2 ^ 32 -> rd_section b buf pos = Ok (s, p) -> se_content s = CWave f ->
  wf_type f = WTiny -> getN (wf_data f) i = Some vs -> exists x, numbers vs = [x] /\ getN buf (pos + 20 + i) = Some x /\ tiny_height x = x / 16.
Proof.
  intros b buf pos s p f i vs HB HL H E T G. destruct (one_byte b buf pos s p f i vs HB HL H E) as (x & N1 & G1); [tauto|assumption|].
  exists x. split; [exact N1|]. rewrite T in G1. split; [exact G1|]. pose proof (getN_byte _ _ _ HB G1) as HX. unfold tiny_height, tiny_widths. cbn [bf_get]. change (2 ^ 4) with 16.
  clear -HX. lia.
Qed.
Print Assumptions c71_tiny_in_file.
(** A column of a colour detail: by the documentation it is a number with the most significant byte first, and from its most significant bit
    on it has 3 bits of red, 3 of green, 3 of blue, 5 of height and 2 unused bits. This is what is stored in such a column, as two bytes. *)
Definition color_bytes (r g bl h u : N) : list N := let v := 8192 * r + 1024 * g + 128 * bl + 4 * h + u in [v / 256; v mod 256].
(** The code shows mixtures of these components. *)
Lemma parts a q r d : r < d -> a = d * q + r -> a / d = q /\ a mod d = r.
Proof. intros H ->. split; [symmetry; now apply N.div_unique with r|symmetry; now apply N.mod_unique with q]. Qed.
Lemma color_parts r g bl h u (x := (8192 * r + 1024 * g + 128 * bl + 4 * h + u) / 256 + 256 * ((8192 * r + 1024 * g + 128 * bl + 4 * h + u) mod 256)) : r < 8 -> g < 8 -> bl < 8 -> h < 32 -> u < 4 ->
  x mod 8 = 4 * (g mod 2) + bl / 2 /\ (x / 8) mod 8 = 4 * (r mod 2) + g / 2 /\ (x / 8 / 8) mod 8 = 4 * (u mod 2) + r / 2 /\ (x / 8 / 8 / 8) mod 32 = 2 * (h mod 16) + u / 2.
Proof.
  intros R G B H U. assert (exists r1 r0, r = 2 * r1 + r0 /\ r0 < 2) as (r1 & r0 & -> & R0) by (exists (r / 2), (r mod 2); lia).
  assert (exists r1 r0, g = 2 * r1 + r0 /\ r0 < 2) as (g1 & g0 & -> & G0) by (exists (g / 2), (g mod 2); lia).
  assert (exists r1 r0, bl = 2 * r1 + r0 /\ r0 < 2) as (b1 & b0 & -> & B0) by (exists (bl / 2), (bl mod 2); lia).
  assert (exists r1 r0, u = 2 * r1 + r0 /\ r0 < 2) as (u1 & u0 & -> & U0) by (exists (u / 2), (u mod 2); lia).
  assert (exists r1 r0, h = 16 * r1 + r0 /\ r0 < 16) as (h1 & h0 & -> & H0) by (exists (h / 16), (h mod 16); lia).
  destruct (parts (2 * r1 + r0) r1 r0 2) as [-> ->]; [lia|lia|]. destruct (parts (2 * g1 + g0) g1 g0 2) as [-> ->]; [lia|lia|]. destruct (parts (2 * u1 + u0) u1 u0 2) as [-> ->]; [lia|lia|].
  destruct (parts (2 * b1 + b0) b1 b0 2) as [-> _]; [lia|lia|]. destruct (parts (16 * h1 + h0) h1 h0 16) as [_ ->]; [lia|lia|].
  assert (x = 64 * r1 + 32 * r0 + 8 * g1 + 4 * g0 + b1 + 256 * (128 * b0 + 64 * h1 + 4 * h0 + 2 * u1 + u0)) as ->.
  { unfold x. match goal with |- ?a / _ + _ = _ => destruct (parts a (64 * r1 + 32 * r0 + 8 * g1 + 4 * g0 + b1) (128 * b0 + 64 * h1 + 4 * h0 + 2 * u1 + u0) 256) as [-> ->] end; lia. }
  match goal with |- ?a mod 8 = _ /\ _ => destruct (parts a (32 * (128 * b0 + 64 * h1 + 4 * h0 + 2 * u1 + u0) + 8 * r1 + 4 * r0 + g1) (4 * g0 + b1) 8) as [-> ->] end; [lia|lia|].
  split; [lia|]. match goal with |- ?a mod 8 = _ /\ _ => destruct (parts a (4 * (128 * b0 + 64 * h1 + 4 * h0 + 2 * u1 + u0) + r1) (4 * r0 + g1) 8) as [-> ->] end; [lia|lia|].
  split; [lia|]. match goal with |- ?a mod 8 = _ /\ _ => destruct (parts a (64 * b0 + 32 * h1 + 2 * h0 + u1) (4 * u0 + r1) 8) as [-> ->] end; [lia|lia|].
  split; [lia|]. match goal with |- ?a mod 32 = _ => destruct (parts a (2 * b0 + h1) (2 * h0 + u1) 32) as [_ ->] end; lia.
Qed.
Theorem c71_color_shown : forall r g bl h u, r < 8 -> g < 8 -> bl < 8 -> h < 32 -> u < 4 ->
  exists x, number (color_bytes r g bl h u) 0 2 = Some x /\ color_red x = 4 * (g mod 2) + bl / 2 /\ color_green x = 4 * (r mod 2) + g / 2 /\
    color_blue x = 4 * (u mod 2) + r / 2 /\ color_height x = 2 * (h mod 16) + u / 2.
Proof.
  intros r g bl h u R G B H U. unfold color_bytes. cbn [number getN nth_error N.to_nat]. eexists. split; [reflexivity|].
  unfold color_red, color_green, color_blue, color_height, color_widths. cbn [bf_get]. change (2 ^ 3) with 8. change (2 ^ 5) with 32.
  pose proof (color_parts r g bl h u R G B H U) as P. cbv zeta in P. rewrite N.mul_0_r, N.add_0_r. exact P.
Qed.
Print Assumptions c71_color_shown.
(** Pure red of full height is shown as green and blue, and as less high. *)
Theorem c71_color_refuted : exists r g bl h x, r < 8 /\ g < 8 /\ bl < 8 /\ h < 32 /\ number (color_bytes r g bl h 0) 0 2 = Some x /\
  color_red x <> r /\ color_green x <> g /\ color_blue x <> bl /\ color_height x <> h.
Proof. exists 7, 0, 0, 31. eexists. repeat (split; [reflexivity|]). vm_compute. repeat split; discriminate. Qed.
Print Assumptions c71_color_refuted.
Example c71_example : preview_height 0x25 = 5 /\ preview_whiteness 0x25 = 1 /\ Forall2 (fun w v => v < 2 ^ w) color_widths [7; 0; 5; 31; 2] /\
  bf_set preview_widths 0 7 0x25 = Ok 0x27 /\ bf_set preview_widths 1 8 0x25 = Panic /\ color_bytes 7 0 0 31 0 = [0xE0; 0x7C].
Proof. split; [reflexivity|]. split; [reflexivity|]. split; [repeat constructor|]. repeat split. Qed.
(** In a file: column [i] of a colour detail is at [24 + 2 * i]; if the documented bytes are there, the code shows the mixture. *)
Theorem c71_color_in_file : forall b buf pos s p f i vs r g bl h u, bytes_ok buf -> len buf < 2 ^ 32 -> rd_section b buf pos = Ok (s, p) -> se_content s = CWave f ->
  wf_type f = WColorDetail -> getN (wf_data f) i = Some vs -> has buf (pos + 24 + 2 * i) (color_bytes r g bl h u) -> r < 8 -> g < 8 -> bl < 8 -> h < 32 -> u < 4 ->
  exists x, numbers vs = [x] /\ color_red x = 4 * (g mod 2) + bl / 2 /\ color_green x = 4 * (r mod 2) + g / 2 /\
    color_blue x = 4 * (u mod 2) + r / 2 /\ color_height x = 2 * (h mod 16) + u / 2.
Proof.
  intros b buf pos s p f i vs r g bl h u HB HL H E T G HH R1 G1 B1 H1 U1. apply c69_section in H as (_ & H); [|assumption|assumption]. rewrite E in H.
  assert (wave_at buf pos (wf_type f) f p) as W by (revert H; cbn [content_at]; destruct (h_kind (se_header s)); intro H; try contradiction; destruct H as (T' & H); rewrite T'; now split).
  rewrite T in W. destruct W as (_ & _ & _ & _ & W & _). destruct (W i vs G) as (x & N1 & X). cbn [wave_data wave_width] in X. exists x. split; [exact N1|].
  destruct (c71_color_shown r g bl h u R1 G1 B1 H1 U1) as (y & Y & C). apply number_has in HH. change (List.length (color_bytes r g bl h u)) with 2%nat in HH.
  assert (number (color_bytes r g bl h u) 0 2 = Some (le_dec (color_bytes r g bl h u))) as Z.
  { apply (number_has (color_bytes r g bl h u) (color_bytes r g bl h u) 0). exists [], []. split; [now rewrite app_nil_r|reflexivity]. }
  rewrite Y in Z. injection Z as ->. rewrite X in HH. injection HH as ->. exact C.
Qed.
Print Assumptions c71_color_in_file.
