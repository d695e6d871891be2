(** * The program on a file system: C87 *)
From Coq Require Import NArith ZArith List Bool Lia Sorted Relations String.
From Coq Require Import ZifyBool ZifyNat ZifyN.
From Verif Require Import Base BaseFacts Utf Str Schema Oa Rows Page Db Setting Device DeviceFacts DeviceTree Cli CliFacts CliList Listing Dump Show Anlz Xml XmlDoc Fs FsFacts FsExport Main
  Robust PropSetting PropShow PropRobust PropCli PropDump PropListing PropExport.
Import ListNotations.
Local Close Scope string_scope.
Open Scope N_scope.

(** C87.  The commands on a file system.

    Whatever is done and whatever goes wrong, no command changes a file that is not called *.m3u; all but the export change nothing. *)
Theorem c87_files : forall F readF lex b depth w cwd f c o x f', execute F readF lex b depth w cwd f c o x f' ->
  ((forall p out, c <> ExportPlaylists p out) -> forall l, f' l = f l) /\
  forall l, match f l with
  | Some EDir => f' l = Some EDir
  | Some (EFile bs) => (exists bs', f' l = Some (EFile bs')) /\ (~ is_m3u l -> f' l = Some (EFile bs))
  | None => f' l = None \/ f' l = Some EDir \/ (is_m3u l /\ exists bs, f' l = Some (EFile bs))
  end.
Proof.
  intros F readF lex b depth w cwd f c o x f' H. assert (forall l, match f l with Some EDir => f l = Some EDir | Some (EFile bs) => (exists bs', f l = Some (EFile bs')) /\ (~ is_m3u l -> f l = Some (EFile bs))
    | None => f l = None \/ f l = Some EDir \/ (is_m3u l /\ exists bs, f l = Some (EFile bs)) end) as S by (intro l; destruct (f l) as [[|bs]|]; [easy|split; eauto|now left]).
  destruct H as [c o x _|p out e _|p out _|p out ops ps f' ok HP HR]; [easy|easy|easy|]. apply log_run in HR. split; [intro N; now destruct (N p out)|].
  unfold plan in HP. destruct (open_file f cwd (pdb_path p)) as [| |io]; [easy|easy|]. destruct (db_open io DbPlain) as [d|e|]; [|easy|easy]. now apply (c86_kept b depth d out (render (locate cwd p)) ops cwd f f' ok).
Qed.
Print Assumptions c87_files.

(** The files that a command reads; nothing else in the file system has an influence on what it prints or does. *)
Definition sources (c : command) : list path :=
  match c with
  | ListPlaylists p | DumpAnlz p | DumpPdb p _ _ | DumpSetting p _ | DumpXml p => [p]
  | ListSettings p => map (fun t => setting_path p (setting_file t)) [TDev; TDjm; TMy; TMy2]
  | ExportPlaylists p _ => [pdb_path p]
  end.
Theorem c87_reads : forall F readF lex b depth w cwd f g c, (forall q, In q (sources c) -> open_file f cwd q = open_file g cwd q) ->
  show_command F readF lex b depth w f cwd c = show_command F readF lex b depth w g cwd c /\
  forall p out, c = ExportPlaylists p out -> plan b depth f cwd p out = plan b depth g cwd p out.
Proof.
  intros F readF lex b depth w cwd f g c H. destruct c as [p|p|p out|p|p t u|p t|p]; cbn [sources] in H; cbn [show_command]; (split; [|try easy]); try now rewrite (H p (or_introl eq_refl)).
  - assert (forall t, of_opened (open_file f cwd (setting_path p (setting_file t))) = of_opened (open_file g cwd (setting_path p (setting_file t)))) as E.
    { intro t. f_equal. apply H. destruct t; cbn [map In]; tauto. }
    replace (list_settings w (fun name => of_opened (open_file f cwd (setting_path p name)))) with (list_settings w (fun name => of_opened (open_file g cwd (setting_path p name)))); [easy|].
    unfold list_settings, load_settings, load_one. now rewrite !E.
  - reflexivity.
  - intros p' out' [= <- <-]. unfold plan. now rewrite (H _ (or_introl eq_refl)).
Qed.
Print Assumptions c87_reads.

(** Where the files of an export are. *)
Theorem c87_places : forall cwd p, locate cwd (pdb_path p) = locate cwd p ++ [bytes_of "PIONEER"; bytes_of "rekordbox"; bytes_of "export.pdb"] /\
  forall t, locate cwd (setting_path p (setting_file t)) = locate cwd p ++ [bytes_of "PIONEER"; bytes_of (setting_file t)].
Proof.
  assert (forall cwd p n, is_abs n = false -> split n = [n] -> real n -> locate cwd (join p n) = locate cwd p ++ [n]) as J.
  { intros cwd p n H1 H2 H3. rewrite locate_join by easy. rewrite H2. cbn [fold_left]. now apply step_name. }
  intros cwd p. split.
  - unfold pdb_path. rewrite !J; try reflexivity; try (repeat split; discriminate). now rewrite <- !app_assoc.
  - intro t. unfold setting_path. rewrite (J _ (join p _)), (J _ p); try reflexivity; try (repeat split; discriminate); [now rewrite <- app_assoc|now destruct t|now destruct t|destruct t; repeat split; discriminate].
Qed.
Print Assumptions c87_places.

(** A file that can be opened and is not called *.m3u is the same after any run, so the commands that read it print the same. *)
Lemma open_file_at f cwd q bs : open_file f cwd q = OpenFile bs -> f (locate cwd q) = Some (EFile bs) /\
  forall g, dirs_stay f g -> forall bs', g (locate cwd q) = Some (EFile bs') -> open_file g cwd q = OpenFile bs'.
Proof.
  unfold open_file. destruct (has_nul q); [easy|]. pose proof (rev_cases (pieces q)) as E. destruct (rev (pieces q)) as [|x r]; [now destruct q|].
  destruct (enter f (start cwd q) (rev r)) as [l|] eqn:EE; [|easy]. pose proof (pieces_all q) as HN. rewrite E in HN. apply Forall_app in HN as [HN HX]. apply Forall_cons_iff in HX as [HX _].
  pose proof (enter_locate _ _ _ _ HN EE) as EL. destruct (bytes_eqb x dot) eqn:E1; [easy|]. destruct (bytes_eqb x dotdot) eqn:E2; [easy|]. cbn [orb].
  assert (locate cwd q = l ++ [x]) as EQ by (rewrite locate_pieces, E, fold_left_app; cbn [fold_left]; rewrite step_name by (now apply dots_real); now rewrite EL). rewrite EQ.
  destruct (f (l ++ [x])) as [[|c]|]; [easy| |easy]. destruct (last q 0 =? 47); [easy|]. intros [= <-]. split; [easy|]. intros g HS bs' HG. rewrite (enter_mono f g HS _ _ _ EE). now rewrite HG.
Qed.
Theorem c87_same : forall F readF lex b depth w cwd f c o x f' q bs, execute F readF lex b depth w cwd f c o x f' ->
  open_file f cwd q = OpenFile bs -> ~ is_m3u (locate cwd q) -> open_file f' cwd q = OpenFile bs.
Proof.
  intros F readF lex b depth w cwd f c o x f' q bs HX HO HN. apply c87_files in HX as [_ HX]. destruct (open_file_at f cwd q bs HO) as [HA HB]. apply HB.
  - intros l E. specialize (HX l). now rewrite E in HX.
  - specialize (HX (locate cwd q)). rewrite HA in HX. now apply HX.
Qed.
Print Assumptions c87_same.
Lemma m3u_last d x : is_m3u (d ++ [x]) -> exists y, x = y ++ suffix.
Proof. intros (d' & y & E). apply app_inj_tail in E as [_ ->]. now exists y. Qed.
Lemma ends_suffix x : (exists y, x = y ++ suffix) -> skipn (List.length x - 4) x = suffix.
Proof. intros (y & ->). rewrite app_length. change (List.length suffix) with 4%nat. rewrite Nat.add_sub. rewrite skipn_app, skipn_all, Nat.sub_diag. reflexivity. Qed.
(** In particular for the database and the settings of an export: what is read from it is the same after exporting its playlists, wherever to. *)
Theorem c87_after : forall F readF lex b depth w cwd f c o x f' p out bs, execute F readF lex b depth w cwd f c o x f' ->
  open_file f cwd (pdb_path p) = OpenFile bs -> plan b depth f' cwd p out = plan b depth f cwd p out /\
  ((forall t, exists st, open_file f cwd (setting_path p (setting_file t)) = OpenFile st) ->
    show_command F readF lex b depth w f' cwd (ListSettings p) = show_command F readF lex b depth w f cwd (ListSettings p)).
Proof.
  intros F readF lex b depth w cwd f c o x f' p out bs HX HO. destruct (c87_places cwd p) as [P1 P2]. split.
  - apply (c87_reads F readF lex b depth w cwd f' f (ExportPlaylists p out)); [|easy]. intros q [<-|[]]. rewrite HO. apply (c87_same _ _ _ _ _ _ _ _ _ _ _ _ _ _ HX HO). rewrite P1. intro M.
    change (is_m3u (locate cwd p ++ [bytes_of "PIONEER"; bytes_of "rekordbox"] ++ [bytes_of "export.pdb"])) in M. rewrite app_assoc in M. apply m3u_last, ends_suffix in M. discriminate M.
  - intro HS. apply (c87_reads F readF lex b depth w cwd f' f (ListSettings p)). intros q HQ. cbn [sources] in HQ. apply in_map_iff in HQ as (t & <- & _). destruct (HS t) as (st & E). rewrite E.
    apply (c87_same _ _ _ _ _ _ _ _ _ _ _ _ _ _ HX E). rewrite P2. intro M. change (is_m3u (locate cwd p ++ [bytes_of "PIONEER"] ++ [bytes_of (setting_file t)])) in M. rewrite app_assoc in M.
    apply m3u_last, ends_suffix in M. destruct t; discriminate M.
Qed.
Print Assumptions c87_after.

(** The lines of the exported playlists: absolute paths that lead, from wherever, to the path of the track below the directory of the export. *)
Definition named (c : path) : Prop := real c /\ ~ In 47 c.
Lemma split_no_slash p : Forall (fun c => ~ In 47 c) (split p).
Proof.
  induction p as [|c p IH]; [repeat constructor; easy|]. cbn [split]. destruct (N.eqb_spec c 47) as [->|NE]; [constructor; [easy|exact IH]|].
  destruct (split p) as [|y ys]; [constructor; [|constructor]; intros [E|[]]; now apply NE|]. apply Forall_cons_iff in IH as [HY IH]. constructor; [|easy]. intros [E|E]; [now apply NE|now apply HY].
Qed.
Lemma locate_named cwd p : Forall named cwd -> Forall named (locate cwd p).
Proof.
  intro HC. unfold locate. pose proof (split_no_slash p) as HS. assert (Forall named (if is_abs p then [] else cwd)) as H0 by now destruct (is_abs p).
  generalize dependent (if is_abs p then [] else cwd). induction HS as [|c cs HN _ IH]; intros l HL; [easy|]. cbn [fold_left]. apply IH. unfold step.
  destruct (bytes_eqb c []) eqn:E0; [easy|]. destruct (bytes_eqb c [46]) eqn:E1; [easy|]. destruct (bytes_eqb c [46; 46]) eqn:E2.
  - cbn [orb]. clear - HL. induction HL as [|x l H HL IH]; [constructor|]. cbn [removelast]. destruct l; [constructor|]. now constructor.
  - cbn [orb]. apply Forall_app. split; [easy|]. constructor; [|constructor]. split; [|easy]. apply bytes_eqb_false in E0. now apply dots_real.
Qed.
Lemma render_split l : Forall named l -> l <> [] -> split (render l) = [] :: l.
Proof.
  intros H NE. destruct l as [|c l]; [easy|]. unfold render. clear NE. revert c H. induction l as [|d l IH]; intros c H; apply Forall_cons_iff in H as [(_ & HC) H].
  - cbn [flat_map]. rewrite app_nil_r. cbn [split]. rewrite N.eqb_refl. now rewrite split_name.
  - cbn [flat_map]. change (47 :: c) with ([] ++ 47 :: c). cbn [List.app]. cbn [split]. rewrite N.eqb_refl. specialize (IH d H). cbn [flat_map List.app] in IH |- *. cbn [split] in IH. rewrite N.eqb_refl in IH.
    injection IH as IH. rewrite split_app. rewrite (split_name c) by easy. cbn [List.app]. now rewrite IH.
Qed.
Theorem c87_lines : forall cwd cwd' p track, Forall named cwd -> is_abs (unrooted track) = false ->
  let line := join (render (locate cwd p)) (unrooted track) in
  is_abs line = true /\ locate cwd' line = fold_left step (pieces track) (locate cwd p) /\ (Forall real (pieces track) -> locate cwd' line = locate cwd p ++ pieces track).
Proof.
  intros cwd cwd' p track HC HA line. assert (is_abs (render (locate cwd p)) = true) as AR by (unfold render; now destruct (locate cwd p)).
  assert (locate cwd' (render (locate cwd p)) = locate cwd p) as LR.
  { pose proof (locate_named cwd p HC) as HL. destruct (locate cwd p) as [|c l] eqn:EL; [reflexivity|]. unfold locate at 1. rewrite AR, render_split by easy.
    change (fold_left step (c :: l) [] = c :: l). rewrite step_names; [reflexivity|]. rewrite Forall_forall in *. intros x X. now apply HL. }
  assert (pieces (unrooted track) = pieces track) as PS.
  { unfold unrooted. destruct track as [|x t]; [easy|]. destruct (N.eqb_spec x 47) as [->|NX]; reflexivity. }
  assert (locate cwd' line = fold_left step (pieces track) (locate cwd p)) as EL.
  { unfold line. rewrite locate_join by easy. rewrite LR, <- PS. unfold pieces. now rewrite step_pieces. }
  split; [|split; [easy|]].
  - unfold line, join. rewrite HA. rewrite is_abs_app; [easy|]. unfold render. now destruct (locate cwd p).
  - intro HR. rewrite EL. now apply step_names.
Qed.
Print Assumptions c87_lines.

(** Exit status.  The settings are always listed; a settings file is dumped iff its type is known and it can be read (no type: no output, and
    success); analysis and settings files never make a program without overflow checks panic; an XML file that is no document does, a
    missing one does not. *)
Theorem c87_settings : forall F readF lex b depth w cwd f p, exists t, show_command F readF lex b depth w f cwd (ListSettings p) = Some (PSettings F t, Success).
Proof. intros F readF lex b depth w cwd f p. cbn [show_command]. destruct (c72_listing w (fun name => of_opened (open_file f cwd (setting_path p name)))) as (t & -> & _). now exists t. Qed.
Print Assumptions c87_settings.
Theorem c87_setting : forall F readF lex b depth w cwd f p opt, (forall s, opt = Some s -> exists t, s = option_of t) -> exists o x, show_command F readF lex b depth w f cwd (DumpSetting p opt) = Some (o, x) /\
  x <> Panicked /\ (x = Failure -> o = PNothing F) /\
  (forall s, o = PSetting F s <-> exists k bs q, guess_setting_type p opt = Ok (Some k) /\ open_file f cwd p = OpenFile bs /\ rd_setting k bs 0 = Ok (s, q)) /\
  (x = Success <-> guess_setting_type p opt = Ok None \/ exists s, o = PSetting F s).
Proof.
  intros F readF lex b depth w cwd f p opt HO. cbn [show_command].
  assert (exists r, guess_setting_type p opt = Ok r) as (r & EG).
  { destruct opt as [s|]; [destruct (HO s eq_refl) as (t & ->)|destruct (setting_guess p) as (r & E & _); eauto].
    destruct (file_name p) as [n|] eqn:EN; [rewrite (setting_option _ _ _ EN)|rewrite (setting_no_name _ _ EN)]; eauto. }
  rewrite EG. destruct r as [k|].
  - destruct (open_file f cwd p) as [| |bs] eqn:EO.
    1, 2: do 2 eexists; (split; [reflexivity|]); (split; [easy|]); (split; [easy|]); (split; [intro s; split; [easy|intros (k' & bs & q & _ & E & _); easy]|]); split; [easy|intros [E|(s & E)]; easy].
    destruct (rd_setting k bs 0) as [[s q]|e|] eqn:ER; [| |now apply c45_no_panic in ER].
    + do 2 eexists. split; [reflexivity|]. split; [easy|]. split; [easy|]. split; [|split; [intros _; right; eauto|easy]]. intro s'. split.
      * intros [= <-]. now exists k, bs, q.
      * intros (k' & bs' & q' & [= <-] & [= <-] & E). rewrite ER in E. now injection E as -> _.
    + do 2 eexists. split; [reflexivity|]. split; [easy|]. split; [easy|]. split; [|split; [easy|intros [E|(s & E)]; easy]]. intro s. split; [easy|]. intros (k' & bs' & q' & [= <-] & [= <-] & E). congruence.
  - do 2 eexists. split; [reflexivity|]. split; [easy|]. split; [easy|]. split; [|split; [now left|easy]]. intro s. split; [easy|]. intros (k & bs & q & E & _). easy.
Qed.
Print Assumptions c87_setting.
Theorem c87_analysis : forall F readF lex b depth w cwd f p, exists o x, show_command F readF lex b depth w f cwd (DumpAnlz p) = Some (o, x) /\
  (x = Success <-> exists a, o = PAnlz F a) /\ (forall a, o = PAnlz F a <-> exists bs q, open_file f cwd p = OpenFile bs /\ rd_anlz b bs 0 = Ok (a, q)) /\ (b = Release -> x <> Panicked) /\
  (x <> Success -> o = PNothing F) /\ ((forall bs, open_file f cwd p <> OpenFile bs) -> x = Failure) /\ (forall bs e, open_file f cwd p = OpenFile bs -> rd_anlz b bs 0 = Err e -> x = Failure).
Proof.
  intros F readF lex b depth w cwd f p. cbn [show_command]. destruct (open_file f cwd p) as [| |bs].
  1, 2: do 2 eexists; (split; [reflexivity|]); (split; [split; [easy|intros (a & E); easy]|]); (split; [intro a; split; [easy|intros (bs & q & E & _); easy]|easy]).
  destruct (rd_anlz b bs 0) as [[a q]|e|] eqn:ER; do 2 eexists; (split; [reflexivity|]).
  - split; [split; [eauto|easy]|]. split; [|split; [easy|split; [easy|split; [intro N; now destruct (N bs)|intros bs' e [= <-] E; congruence]]]].
    intro a'. split; [intros [= <-]; now exists bs, q|]. intros (bs' & q' & [= <-] & E). rewrite ER in E. now injection E as -> _.
  - split; [split; [easy|intros (a & E); easy]|]. split; [|easy]. intro a. split; [easy|]. intros (bs' & q' & [= <-] & E). congruence.
  - split; [split; [easy|intros (a & E); easy]|]. split; [|split; [intros ->; now apply c74_analysis in ER|split; [easy|split; [intro N; now destruct (N bs)|intros bs' e [= <-] E; congruence]]]].
    intro a. split; [easy|]. intros (bs' & q' & [= <-] & E). congruence.
Qed.
Print Assumptions c87_analysis.
Theorem c87_xml : forall F readF lex b depth w cwd f p, exists o x, show_command F readF lex b depth w f cwd (DumpXml p) = Some (o, x) /\
  (x = Failure <-> open_file f cwd p = NoFile) /\
  (x = Success <-> exists d, o = PDoc F d) /\ (forall d, o = PDoc F d <-> exists bs e, open_file f cwd p = OpenFile bs /\ lex bs = Some e /\ read_doc F readF e = XOk d) /\ (x <> Success -> o = PNothing F).
Proof.
  intros F readF lex b depth w cwd f p. cbn [show_command]. destruct (open_file f cwd p) as [| |bs].
  1, 2: do 2 eexists; (split; [reflexivity|]); (split; [easy|]); (split; [split; [easy|intros (d & E); easy]|]); (split; [|easy]); intro d; split; [easy|intros (bs & e & E & _); easy].
  destruct (lex bs) as [e|] eqn:EL; [destruct (read_doc F readF e) as [d|er] eqn:ER|]; do 2 eexists; (split; [reflexivity|]); (split; [easy|]).
  - split; [split; [eauto|easy]|]. split; [|easy]. intro d'. split; [intros [= <-]; now exists bs, e|]. intros (bs' & e' & [= <-] & E & E2). rewrite EL in E. injection E as <-. congruence.
  - split; [split; [easy|intros (d & E); easy]|]. split; [|easy]. intro d. split; [easy|]. intros (bs' & e' & [= <-] & E & E2). rewrite EL in E. injection E as <-. congruence.
  - split; [split; [easy|intros (d & E); easy]|]. split; [|easy]. intro d. split; [easy|]. intros (bs' & e' & [= <-] & E & _). congruence.
Qed.
Print Assumptions c87_xml.

(** The dump of a database always ends.  It fails iff the type is known and the file or its header cannot be read: tables that cannot be
    read are no failure for the exit status (C73). *)
Theorem c87_pdb : forall F readF lex b depth w cwd f p opt unknown, (forall s, opt = Some s -> s = "plain"%string \/ s = "ext"%string) ->
  (forall bs, open_file f cwd p = OpenFile bs -> bytes_ok bs) -> exists o x, show_command F readF lex b depth w f cwd (DumpPdb p opt unknown) = Some (o, x) /\
  (x = Failure <-> exists k, guess_db_type p opt = Ok (Some k) /\ ~ exists bs d, open_file f cwd p = OpenFile bs /\ db_open bs k = DOk d) /\
  (forall es, es <> [] -> o = PEvents F es <-> exists k bs r, guess_db_type p opt = Ok (Some k) /\ open_file f cwd p = OpenFile bs /\ dump_pdb b bs k unknown = Some (es, r)) /\
  (x = Panicked <-> exists k bs es, guess_db_type p opt = Ok (Some k) /\ open_file f cwd p = OpenFile bs /\ dump_pdb b bs k unknown = Some (es, DPanic)).
Proof.
  intros F readF lex b depth w cwd f p opt unknown HO HB. cbn [show_command].
  assert (exists r, guess_db_type p opt = Ok r) as (r & EG).
  { destruct opt as [s|]; [|destruct (db_guess p) as (r & E & _); eauto]. assert (exists t, s = (match t with DbPlain => "plain" | DbExt => "ext" end)%string) as (t & ->) by (destruct (HO s eq_refl) as [->| ->]; [now exists DbPlain|now exists DbExt]).
    destruct (file_name p) as [n|] eqn:EN; [rewrite (db_option _ _ _ EN)|rewrite (db_no_name _ _ EN)]; eauto. }
  rewrite EG. destruct r as [k|]; [|do 2 eexists; split; [reflexivity|]; split; [split; [easy|intros (k & E & _); easy]|]; split; [intros es _; split; [easy|intros (k & bs & r & E & _); easy]|split; [easy|intros (k & bs & es & E & _); easy]]].
  destruct (open_file f cwd p) as [| |bs] eqn:EO.
  1, 2: do 2 eexists; (split; [reflexivity|]); split; [split; [intros _; exists k; split; [easy|intros (bs & d & E & _); easy]|easy]|]; split; [intros es _; split; [easy|intros (k' & bs & r & _ & E & _); easy]|split; [easy|intros (k' & bs & es & _ & E & _); easy]].
  pose proof (c73_dump b bs k unknown (HB bs eq_refl)) as HD. pose proof (open_no_panic bs k) as NP. unfold db_open in NP.
  assert (exists es r, dump_pdb b bs k unknown = Some (es, r) /\ (match r with DErr _ => True | _ => False end <-> exists e, rd_dbhdr k bs 0 = Err e)) as (es & r & ED & HR).
  { destruct (rd_dbhdr k bs 0) as [[h q]|e|] eqn:ER; [| |easy].
    - destruct HD as (segs & es & x & -> & _). do 2 eexists. split; [reflexivity|]. split; [now destruct x|intros (e & E); easy].
    - rewrite HD. do 2 eexists. split; [reflexivity|]. split; [eauto|easy]. }
  rewrite ED. do 2 eexists. split; [reflexivity|]. split; [|split].
  - split; [intro E; exists k; split; [easy|]|].
    + assert (exists e, rd_dbhdr k bs 0 = Err e) as (e & ER) by (apply HR; now destruct r). intros (bs' & d & [= <-] & E'). unfold db_open in E'. now rewrite ER in E'.
    + intros (k' & [= <-] & N). destruct (rd_dbhdr k bs 0) as [[h q]|e|] eqn:ER; [|now destruct r; destruct (proj2 HR); eauto|easy]. destruct N. eexists bs, _. split; [easy|]. unfold db_open. now rewrite ER.
  - intros es' _. split; [intros [= <-]; now exists k, bs, r|]. intros (k' & bs' & r' & [= <-] & [= <-] & E). rewrite ED in E. now injection E as -> _.
  - split; [intro E; exists k, bs, es; now destruct r|]. intros (k' & bs' & es' & [= <-] & [= <-] & E). rewrite ED in E. now injection E as _ ->.
Qed.
Print Assumptions c87_pdb.

(** The listing: what C76 says about the lines, for the file that is named.  A string that cannot be shown ends the lines and the program
    (C62); nothing is printed when the file or a table cannot be read. *)
Theorem c87_playlists : forall F readF lex b w cwd f p io d rn ra rt re, open_file f cwd p = OpenFile io -> bytes_ok io -> db_open io DbPlain = DOk d ->
  table_in b DbPlain (db_header d) io KPlaylistTreeNode (DOk rn) -> table_in b DbPlain (db_header d) io KArtist (DOk ra) ->
  table_in b DbPlain (db_header d) io KTrack (DOk rt) -> table_in b DbPlain (db_header d) io KPlaylistEntry (DOk re) ->
  exists ns arts trs es, Forall2 (fun r x => node_of_row r = Some x) rn ns /\ Forall2 (fun r x => artist_of_row r = Some x) ra arts /\
    Forall2 (fun r x => listed_track_of_row r = Some x) rt trs /\ Forall2 (fun r x => pentry_of_row r = Some x) re es /\
    (NoDup (map nd_id ns) /\ ~ In 0 (map nd_id ns) -> exists (v : list (nat * node)) (ls : list (list CliList.item)),
       Forall2 (node_lines es arts trs) v ls /\ NoDup (map snd v) /\ (forall n, In n (map snd v) <-> In n ns /\ clos_refl_trans_1n N (under ns) 0 (nd_parent n)) /\
       forall depth, (List.length ns < depth)%nat -> exists o x, show_command F readF lex b depth w f cwd (ListPlaylists p) = Some (o, x) /\
         ((forall i, In i (List.concat ls) -> forall s, In s (fst i) -> dstr_display_panics s = false) -> x = Success /\ o = PLines F (map snd (List.concat ls))) /\
         (forall l1 i l2, List.concat ls = l1 ++ i :: l2 -> (forall j, In j l1 -> forall s, In s (fst j) -> dstr_display_panics s = false) ->
            (exists s, In s (fst i) /\ dstr_display_panics s = true) -> x = Panicked /\ o = PLines F (map snd l1))).
Proof.
  intros F readF lex b w cwd f p io d rn ra rt re HO HB HD T1 T2 T3 T4. destruct (c76_lines b io d rn ra rt re HB HD T1 T2 T3 T4) as (ns & arts & trs & es & F1 & F2 & F3 & F4 & H).
  exists ns, arts, trs, es. do 4 (split; [easy|]). intro HN. destruct (H HN) as (v & ls & HL & HF & HV & HI & _). exists v, ls. do 3 (split; [easy|]). intros depth L. cbn [show_command]. rewrite HO, (HL depth L). unfold shown.
  assert (forall i : CliList.item, (forall s, In s (fst i) -> dstr_display_panics s = false) -> bad i = false) as B0.
  { intros i Hi. unfold bad. destruct (existsb dstr_display_panics (fst i)) eqn:E; [|easy]. apply existsb_exists in E as (s & I & E). rewrite (Hi s I) in E. discriminate E. }
  assert (forall l, (forall i, In i l -> bad i = false) -> before_bad l = l /\ existsb bad l = false) as B1.
  { induction l as [|i l IH]; intro Hi; [easy|]. cbn [before_bad existsb]. rewrite (Hi i (or_introl eq_refl)). destruct IH as [-> ->]; [|easy]. intros j J. apply Hi. now right. }
  do 2 eexists. split; [reflexivity|]. split.
  - intro Hi. destruct (B1 (List.concat ls)) as [-> ->]; [|easy]. intros i I. apply B0. now apply Hi.
  - intros l1 i l2 -> H1 (s & I & Hs). assert (bad i = true) as Bi by (unfold bad; apply existsb_exists; eauto).
    assert (before_bad (l1 ++ i :: l2) = l1 /\ existsb bad (l1 ++ i :: l2) = true) as [-> ->]; [|easy].
    clear -H1 Bi B0. induction l1 as [|j l1 IH]; cbn [List.app before_bad existsb]; [now rewrite Bi|]. rewrite (B0 j (H1 j (or_introl eq_refl))).
    destruct IH as [-> ->]; [|easy]. intros k K. apply H1. now right.
Qed.
Print Assumptions c87_playlists.
Theorem c87_no_playlists : forall F readF lex b depth w cwd f p,
  ((forall io, open_file f cwd p <> OpenFile io) -> show_command F readF lex b depth w f cwd (ListPlaylists p) = Some (PNothing F, Failure)) /\
  forall io, open_file f cwd p = OpenFile io -> bytes_ok io ->
    (forall e, db_open io DbPlain = DErr e -> show_command F readF lex b depth w f cwd (ListPlaylists p) = Some (PNothing F, Failure)) /\
    forall d l1 kd l2, db_open io DbPlain = DOk d -> [KPlaylistTreeNode; KArtist; KTrack; KPlaylistEntry] = l1 ++ kd :: l2 ->
      (forall kd', In kd' l1 -> exists rows, table_in b DbPlain (db_header d) io kd' (DOk rows)) ->
      (forall e, table_in b DbPlain (db_header d) io kd (DErr e) -> show_command F readF lex b depth w f cwd (ListPlaylists p) = Some (PNothing F, Failure)) /\
      (table_in b DbPlain (db_header d) io kd DPanic -> show_command F readF lex b depth w f cwd (ListPlaylists p) = Some (PNothing F, Panicked)).
Proof.
  intros F readF lex b depth w cwd f p. cbn [show_command]. split; [intro N; destruct (open_file f cwd p) as [| |io]; [easy|easy|now destruct (N io)]|].
  intros io -> HB. split; [intros e E; unfold list_playlists; now rewrite E|]. intros d l1 kd l2 HD HL H1. destruct (c76_error b io d l1 kd l2 HB HD HL H1) as [E1 E2].
  split; [intros e HE; now rewrite (E1 e HE)|intro HP; now rewrite (E2 HP)].
Qed.
Print Assumptions c87_no_playlists.

(** From the rows in the file to the files on disk: after an export that succeeded, each playlist with its own place is there; it has the
    lines of C55 for the entries and tracks of the database. *)
Theorem c87_export : forall F readF lex b depth w cwd f p out o f' io, execute F readF lex b depth w cwd f (ExportPlaylists p out) o Success f' ->
  open_file f cwd (pdb_path p) = OpenFile io -> bytes_ok io ->
  exists d rn re rt ns es raw tr ts, db_open io DbPlain = DOk d /\ table_in b DbPlain (db_header d) io KPlaylistTreeNode (DOk rn) /\
    table_in b DbPlain (db_header d) io KPlaylistEntry (DOk re) /\ table_in b DbPlain (db_header d) io KTrack (DOk rt) /\
    Forall2 (fun r x => node_of_row r = Some x) rn ns /\ Forall2 (fun r x => pentry_of_row r = Some x) re es /\ Forall2 (fun r x => track_of_row r = Some x) rt raw /\
    Forall2 (fun x y => fst x = fst y /\ dstr_into_string (snd x) = inl (snd y)) raw tr /\ playlist_tree depth ns = Some (Done ts) /\
    (Forall safe ts -> NoDup (map (fun x => dir_of [] (fst (fst x)) ++ [m3u (snd x)]) (flat_map (playlists []) ts)) ->
     forall above id name, In (above, id, name) (flat_map (playlists []) ts) -> exists ps ls,
       f' (dir_of (locate cwd out) above ++ [m3u name]) = Some (EFile (flat_map (fun l => l ++ [10]) ls)) /\
       StronglySorted (fun x y => fst x < fst y) ps /\
       (forall i t, In (i, t) ps <-> last_of (fun e => pe_playlist e = id /\ pe_index e = i) es (mk_pentry i t id)) /\
       listed (render (locate cwd p)) tr ps ls).
Proof.
  intros F readF lex b depth w cwd f p out o f' io HX HO HB. inversion HX as [c o' x' HS| | |p' out' ops pths f'' ok HP HR E1 E2 E3]; subst; [easy|]. destruct ok; [|easy]. apply log_run in HR.
  unfold plan in HP. rewrite HO in HP. destruct (db_open io DbPlain) as [d|e|] eqn:ED; [|easy|easy]. pose proof (export_file b io DbPlain d out (render (locate cwd p)) HB ED depth) as HE. rewrite HP in HE.
  destruct HE as (rn & re & rt & ns & es & raw & tr & ts & T1 & T2 & T3 & F1 & F2 & F3 & F4 & PT & ->). exists d, rn, re, rt, ns, es, raw, tr, ts. do 9 (split; [easy|]).
  intros HS ND above id name I. destruct (c55_content (render (locate cwd p)) es tr id) as (ps & ls & EC & H). exists ps, ls. split; [|easy]. rewrite <- EC. exact (c86_all _ _ _ _ _ _ HS HR ND _ _ _ I).
Qed.
Print Assumptions c87_export.

(** ** Example: an export on a stick, its playlists written beside it *)
Definition usb : files := fun l =>
  if loc_eq_dec l [] then Some EDir else if loc_eq_dec l [bytes_of "usb"] then Some EDir else if loc_eq_dec l [bytes_of "usb"; bytes_of "PIONEER"] then Some EDir
  else if loc_eq_dec l [bytes_of "usb"; bytes_of "PIONEER"; bytes_of "rekordbox"] then Some EDir
  else if loc_eq_dec l [bytes_of "usb"; bytes_of "PIONEER"; bytes_of "rekordbox"; bytes_of "export.pdb"] then Some (EFile c76_io)
  else if loc_eq_dec l [bytes_of "usb"; bytes_of "PIONEER"; bytes_of "MYSETTING.DAT"] then Some (EFile [1; 2]) else None.
Example c87_plan : plan Debug 4 usb [bytes_of "usb"] (bytes_of ".") (bytes_of "lists") = Some (Done
  [MkDirs (bytes_of "lists/Sets"); WriteFile (bytes_of "lists/Sets/Deep.m3u") (bytes_of "/usb/b.mp3" ++ [10] ++ bytes_of "/usb/a.mp3" ++ [10]);
   MkDirs (bytes_of "lists"); WriteFile (bytes_of "lists/Mix.m3u") []]).
Proof. vm_compute. reflexivity. Qed.
Example c87_example : forall F readF lex w, exists f', execute F readF lex Debug 4 w [bytes_of "usb"] usb (ExportPlaylists (bytes_of ".") (bytes_of "lists"))
    (PPaths F (bytes_of "lists/Sets/Deep.m3u" ++ [10] ++ bytes_of "lists/Mix.m3u" ++ [10])) Success f' /\
  open_file usb [bytes_of "usb"] (pdb_path (bytes_of ".")) = OpenFile c76_io /\ bytes_ok c76_io /\ ~ is_m3u (locate [bytes_of "usb"] (pdb_path (bytes_of "."))) /\
  f' [bytes_of "usb"; bytes_of "lists"; bytes_of "Sets"; bytes_of "Deep.m3u"] = Some (EFile (bytes_of "/usb/b.mp3" ++ [10] ++ bytes_of "/usb/a.mp3" ++ [10])) /\
  f' [bytes_of "usb"; bytes_of "lists"; bytes_of "Mix.m3u"] = Some (EFile []) /\
  Forall named [bytes_of "usb"] /\ is_abs (unrooted (bytes_of "/a.mp3")) = false /\ Forall real (pieces (bytes_of "/a.mp3")).
Proof.
  intros F readF lex w. destruct (perform [bytes_of "usb"] usb [MkDirs (bytes_of "lists/Sets"); WriteFile (bytes_of "lists/Sets/Deep.m3u") (bytes_of "/usb/b.mp3" ++ [10] ++ bytes_of "/usb/a.mp3" ++ [10]);
   MkDirs (bytes_of "lists"); WriteFile (bytes_of "lists/Mix.m3u") []]) as [f' r] eqn:E.
  assert (r = None) as -> by (apply (f_equal snd) in E; vm_compute in E; now symmetry). pose proof (perform_log _ _ _ _ E) as R. exists f'. split; [exact (Main.ex_export F readF lex _ _ w _ _ _ _ _ _ _ true c87_plan R)|].
  split; [vm_compute; reflexivity|]. split; [exact c76_bytes|]. split. { intro M. apply (m3u_last [bytes_of "usb"; bytes_of "PIONEER"; bytes_of "rekordbox"]), ends_suffix in M. vm_compute in M. discriminate M. }
  apply (f_equal fst) in E. cbn [fst] in E. rewrite <- E. split; [vm_compute; reflexivity|]. split; [vm_compute; reflexivity|].
  split. { constructor; [|constructor]. repeat split; try discriminate. cbn. intuition discriminate. } split; [reflexivity|]. constructor; [|constructor]. repeat split; discriminate.
Qed.
(** The same stick: no settings but a broken file, which is no error; a dump without type, a missing XML file, one that is no XML. *)
Example c87_others : forall F readF depth w, let show := show_command F readF (fun _ => None) Release depth w usb [] in
  (exists t, show (ListSettings (bytes_of "usb")) = Some (PSettings F t, Success)) /\
  show (DumpSetting (bytes_of "usb/PIONEER/MYSETTING.DAT") None) = Some (PNothing F, Failure) /\ show (DumpSetting (bytes_of "usb/PIONEER/rekordbox/export.pdb") None) = Some (PNothing F, Success) /\
  show (DumpSetting (bytes_of "missing") None) = Some (PNothing F, Success) /\
  show (DumpXml (bytes_of "missing")) = Some (PNothing F, Failure) /\ show (DumpXml (bytes_of "usb/PIONEER/MYSETTING.DAT")) = Some (PNothing F, Panicked) /\ show (DumpXml (bytes_of "usb")) = Some (PNothing F, Panicked).
Proof. intros F readF depth w show. split; [apply c87_settings|]. repeat split; vm_compute; reflexivity. Qed.
(** The listing of the database of the stick; [c76_example] has its tables. *)
Example c87_playlists_example : forall F readF lex w, open_file usb [bytes_of "usb"] (bytes_of "PIONEER/rekordbox/export.pdb") = OpenFile c76_io /\ db_open c76_io DbPlain = DOk c76_open /\
  show_command F readF lex Debug 4 w usb [bytes_of "usb"] (ListPlaylists (bytes_of "PIONEER/rekordbox/export.pdb")) = Some (PLines F
    [LNode 0 true (DSShort (bytes_of "Sets")); LNode 1 false (DSShort (bytes_of "Deep"));
      LTrack 1 1 (TNoArtist 8 (DSShort (bytes_of "Two"))); LTrack 1 2 (TFound (DSShort (bytes_of "Ann")) (DSShort (bytes_of "One")));
      LNode 0 false (DSShort (bytes_of "Mix")); LTrack 0 1 (TMissing 42)], Success) /\
  show_command F readF lex Debug 4 w usb [] (ListPlaylists (bytes_of "PIONEER/rekordbox/export.pdb")) = Some (PNothing F, Failure).
Proof. intros F readF lex w. split; [vm_compute; reflexivity|]. split; [exact c76_opens|]. split; vm_compute; reflexivity. Qed.
