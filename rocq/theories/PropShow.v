(** * Property theorems C72: the listing of settings *)
From Coq Require Import NArith Arith List Bool String Ascii Lia.
From Verif Require Import Base Setting Device DeviceFacts Show ShowFacts.
Import ListNotations.
Open Scope N_scope.

(** C72.  [list-settings] never fails.  Its output has one line for each setting, named like the field; the value on the line is the text of the
    value stored in the file, or <missing> if the file cannot be read. *)
Theorem c72_listing : forall w fs, exists text, list_settings w fs = Ok text /\
  NoDup (map line_name (lines_of text)) /\
  (forall f, In f (map line_name (lines_of text)) <-> exists t i e, nth_error (names_of t) i = Some f /\ nth_error (items_of t) i = Some (IOpt e)) /\
  forall t i name e l, nth_error (names_of t) i = Some name -> nth_error (items_of t) i = Some (IOpt e) -> In l (lines_of text) -> line_name l = name ->
    (forall bs st p, fs (setting_file t) = FsBytes bs -> rd_setting t bs 0 = Ok (st, p) ->
       exists v, nth_error (sd_vals (st_data st)) i = Some (VOpt v) /\ show_option w (se_name e) v = Some (line_value l)) /\
    ((fs (setting_file t) = FsError \/ exists bs er, fs (setting_file t) = FsBytes bs /\ rd_setting t bs 0 = Err er) -> line_value l = "<missing>"%string).
Proof.
  intros w fs. destruct (load_settings_spec fs) as (s & HL & HS). pose proof (load_sensible fs s HL) as HN. exists (show_settings w s).
  assert (map line_name (map (show_line w s) display_lines) = map snd display_lines) as EN.
  { rewrite map_map. apply map_ext_in. intros l I. now apply line_name_show. }
  unfold list_settings. rewrite HL, lines_of_show, EN by easy. split; [easy|]. split; [exact lines_nodup|]. split.
  { intro f. rewrite lines_fields. apply settings_fields_spec. }
  intros t i name e l HNm HI HIn HName. apply in_map_iff in HIn as (q & <- & HQ). rewrite line_name_show in HName by easy.
  rewrite line_value_show by easy. rewrite HName. destruct (HS t i name e HNm HI) as [H1 H2]. split.
  - intros bs st p HF HR. destruct (H1 bs st p HF HR) as (v & HV & Hs). exists v. split; [easy|].
    destruct (table_ok w _ _ _ _ (in_options _ _ _ _ HNm HI)) as [HT HVal]. destruct (rd_setting_variant _ _ _ _ _ _ _ _ HR HI HV) as [c HC].
    specialize (HVal v c HC). unfold format_option, value_ok in *. rewrite Hs, HT. now destruct (show_option w (se_name e) v).
  - intro HF. now rewrite (H2 HF).
Qed.
Print Assumptions c72_listing.

(** The listing shows everything: if two exports give the same text, all settings read from them are the same. *)
Theorem c72_faithful : forall w fs fs' text s s', list_settings w fs = Ok text -> list_settings w fs' = Ok text ->
  load_settings fs = Ok s -> load_settings fs' = Ok s' -> forall f, In f settings_fields -> s f = s' f.
Proof.
  intros w fs fs' text s s' H H' HL HL' f HF. unfold list_settings in *. rewrite HL in H. rewrite HL' in H'.
  assert (show_settings w s = text) by congruence. assert (show_settings w s' = text) by congruence. clear H H'. subst text.
  pose proof (load_sensible _ _ HL) as HS. pose proof (load_sensible _ _ HL') as HS'.
  assert (map (show_line w s) display_lines = map (show_line w s') display_lines) as E by (rewrite <- !lines_of_show by easy; congruence).
  apply lines_fields, in_map_iff in HF as (l & <- & HI).
  assert (show_line w s l = show_line w s' l) as El.
  { revert HI. clear -E. induction display_lines as [|x r IH]; cbn in *; [easy|]. injection E as E1 E2. intros [<-|I]; auto. }
  pose proof (f_equal line_value El) as Ev. rewrite !line_value_show in Ev by easy.
  assert (In (snd l) settings_fields) as HF by (apply (proj1 (lines_fields (snd l))); now apply in_map).
  apply settings_fields_ok in HF as (t & [[i n] e] & HP & Hn). cbn [fst snd] in Hn. rewrite <- Hn in *. now apply (format_option_inj w s s' t i n e).
Qed.
Print Assumptions c72_faithful.

Local Open Scope string_scope.
(** Options are shown as the documentation says they are named in Rekordbox, up to the case of ASCII letters, except those listed here. *)
Definition documented (e v d : string) : Prop := exists vs, In (e, vs) documented_names /\ In (v, d) vs.
Definition named_otherwise : list (string * string) :=
  [("TempoRange", "SixPercent"); ("TempoRange", "TenPercent"); ("TempoRange", "SixteenPercent"); ("MicLowCut", "On");
   ("Language", "ChineseSimplified"); ("Language", "ChineseTraditional")].
Theorem c72_names : forall w e v d, documented e v d -> ~ In (e, v) named_otherwise ->
  exists t, show_option w e v = Some t /\ smap lower t = smap lower d.
Proof.
  intros w e v d (vs & H1 & H2) HN.
  assert (forallb (fun q : string * list (string * string) => forallb (fun r =>
    existsb (fun x => String.eqb (fst x) (fst q) && String.eqb (snd x) (fst r)) named_otherwise ||
    match show_option w (fst q) (fst r) with Some t => String.eqb (smap lower t) (smap lower (snd r)) | None => false end) (snd q)) documented_names = true) as W
    by (destruct w; vm_compute; reflexivity).
  rewrite forallb_forall in W. specialize (W _ H1). rewrite forallb_forall in W. specialize (W _ H2). cbn [fst snd] in W. apply orb_true_iff in W as [W|W].
  - exfalso. apply HN. apply existsb_exists in W as ([a b] & W & W2). cbn [fst snd] in W2. apply andb_true_iff in W2 as [A B].
    apply String.eqb_eq in A, B. now subst.
  - destruct (show_option w e v) as [t|]; [|easy]. exists t. split; [easy|]. now apply String.eqb_eq.
Qed.
Print Assumptions c72_names.
(** Every option has names for all its variants, apart from the three fader curves, whose documentation describes them in words. *)
Theorem c72_names_complete : forall e v c, In e all_enums -> In (v, c) (se_vars e) ->
  (exists d, documented (se_name e) v d) \/ In (se_name e) ["ChannelFaderCurve"; "CrossfaderCurve"; "ChannelFaderCurveLongFader"].
Proof.
  assert (forallb (fun e => forallb (fun p => existsb (fun q => String.eqb (fst q) (se_name e) && existsb (fun r => String.eqb (fst r) (fst p)) (snd q)) documented_names ||
    existsb (String.eqb (se_name e)) ["ChannelFaderCurve"; "CrossfaderCurve"; "ChannelFaderCurveLongFader"]) (se_vars e)) all_enums = true) as W by (vm_compute; reflexivity).
  intros e v c HE HV. rewrite forallb_forall in W. specialize (W e HE). rewrite forallb_forall in W. specialize (W _ HV). cbn [fst] in W.
  apply orb_true_iff in W as [W|W]; [left|right].
  - apply existsb_exists in W as ([a vs] & W1 & W2). cbn [fst snd] in W2. apply andb_true_iff in W2 as [A B]. apply String.eqb_eq in A.
    apply existsb_exists in B as ([v' d] & B1 & B2). cbn [fst] in B2. apply String.eqb_eq in B2. exists d, vs. subst. easy.
  - apply existsb_exists in W as (x & W1 & W2). apply String.eqb_eq in W2. now rewrite W2.
Qed.
Print Assumptions c72_names_complete.

(** Simplified Chinese is not shown by its name, whichever attribute of the next variant counts; if it is the first one, traditional Chinese is shown
    by the name of simplified Chinese. *)
Theorem c72_language_refuted : documented "Language" "ChineseSimplified" "简体中文" /\ documented "Language" "ChineseTraditional" "繁體中文" /\
  (forall w, show_option w "Language" "ChineseSimplified" = Some "ChineseSimplified") /\
  show_option First "Language" "ChineseTraditional" = Some "简体中文" /\ show_option Last "Language" "ChineseTraditional" = Some "繁體中文".
Proof.
  assert (forall v d, existsb (fun q : string * list (string * string) => String.eqb (fst q) "Language" && existsb (fun r => String.eqb (fst r) v && String.eqb (snd r) d) (snd q)) documented_names = true ->
     documented "Language" v d) as K.
  { intros v d H. apply existsb_exists in H as ([e vs] & H1 & H2). cbn [fst snd] in H2. apply andb_true_iff in H2 as [H2 H3]. apply String.eqb_eq in H2 as ->.
    apply existsb_exists in H3 as ([v' d'] & H3 & H4). cbn [fst snd] in H4. apply andb_true_iff in H4 as [A B]. apply String.eqb_eq in A, B. subst. now exists vs. }
  split; [now apply K|]. split; [now apply K|]. split; [now intros []|]. split; reflexivity.
Qed.
Print Assumptions c72_language_refuted.

(** An export whose MYSETTING.DAT selects simplified Chinese, and without MYSETTING2.DAT *)
Definition ex_chinese : list N :=
  let s := default_setting TMy in
  let f v := match v with VOpt "English" => VOpt "ChineseSimplified" | _ => v end in
  match enc_setting (mk_setting (st_brand s) (st_software s) (st_version s) (mk_sdata TMy (map f (sd_vals (st_data s))))) with Ok bs => bs | _ => [] end.
Definition ex_export (f : string) : fstate := if String.eqb f "MYSETTING.DAT" then FsBytes ex_chinese else FsError.
Example c72_example : exists text l1 l2 l3, list_settings Last ex_export = Ok text /\ List.length (lines_of text) = 46%nat /\
  In l1 (lines_of text) /\ line_name l1 = "language" /\ line_value l1 = "ChineseSimplified" /\
  In l2 (lines_of text) /\ line_name l2 = "lcd_brightness" /\ line_value l2 = "3" /\
  In l3 (lines_of text) /\ line_name l3 = "jog_display_mode" /\ line_value l3 = "<missing>".
Proof.
  destruct (list_settings Last ex_export) as [text| |] eqn:E; [|vm_compute in E; discriminate|vm_compute in E; discriminate].
  exists text, "Language:                       ChineseSimplified", "LCD Brightness:                 3", "Jog Display Mode:               <missing>".
  vm_compute in E. assert (exists x, x = text) as [x Hx] by eauto. injection E as <-. clear.
  repeat match goal with |- _ /\ _ => split | |- In _ _ => vm_compute; tauto | |- _ => vm_compute; reflexivity end.
Qed.
