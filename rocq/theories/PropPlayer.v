(** * Property C89: a player opens the tracks of an exported playlist *)
From Coq Require Import NArith ZArith List Bool Lia Sorted String.
From Coq Require Import ZifyBool ZifyNat ZifyN.
From Verif Require Import Base BaseFacts Utf UtfFacts Str Schema Oa Rows Page Db Setting Device DeviceFacts DeviceTree Cli CliFacts CliList Listing Dump Show Anlz Xml XmlDoc Fs FsFacts FsExport Main Player
  PropCli PropListing PropExport PropMain.
Import ListNotations.
Local Close Scope string_scope.
Open Scope N_scope.

(** What a player does: lines end at line feeds; empty lines and comments are skipped. *)
Fixpoint cut (bs : list N) : list (list N) :=
  match bs with
  | [] => [[]]
  | x :: r => if x =? 10 then [] :: cut r else match cut r with y :: ys => (x :: y) :: ys | [] => [[x]] end
  end.
Definition useful (l : list N) : bool := match l with [] => false | x :: _ => negb (x =? 35) end.
Definition m3u_lines (bs : list N) : list (list N) := filter useful (cut bs).

Lemma cut_clean bs : Forall (fun l => ~ In 10 l) (cut bs).
Proof.
  induction bs as [|x r IH]; cbn [cut]; [repeat constructor; easy|]. destruct (N.eqb_spec x 10) as [->|NX]; [now constructor|].
  destruct (cut r) as [|y ys]; [repeat constructor; intros [E|[]]; now apply NX|]. apply Forall_cons_iff in IH as [HY IH]. constructor; [|easy]. intros [E|E]; [now apply NX|now apply HY].
Qed.
Lemma cut_line l r : ~ In 10 l -> cut (l ++ 10 :: r) = l :: cut r.
Proof.
  induction l as [|x l IH]; intro H; [reflexivity|]. cbn [List.app cut]. destruct (N.eqb_spec x 10) as [->|NX]; [exfalso; apply H; now left|]. rewrite IH; [easy|]. intro I. apply H. now right.
Qed.
Lemma cut_lines ls : Forall (fun l => ~ In 10 l) ls -> cut (flat_map (fun l => l ++ [10]) ls) = ls ++ [[]].
Proof. induction 1 as [|l ls H _ IH]; [reflexivity|]. cbn [flat_map]. rewrite <- app_assoc. cbn [List.app]. rewrite cut_line by easy. now rewrite IH. Qed.

Lemma join_abs canon q : is_abs canon = true -> is_abs (join canon q) = true.
Proof. intro H. unfold join. destruct (is_abs q) eqn:E; [easy|]. destruct canon as [|x r]; [easy|]. exact H. Qed.
Lemma is_abs_cons p : is_abs p = true -> exists r, p = 47 :: r.
Proof. destruct p as [|x r]; [easy|]. intro H. exists r. f_equal. cbn in H. destruct x as [|x]; [easy|]. do 6 (destruct x as [x|x|]; try easy). Qed.
Lemma display_abs p : is_abs p = true -> exists r, display p = 47 :: r.
Proof. intro H. apply is_abs_cons in H as (r & ->). exists (display r). exact (display_app 47 r [] ltac:(lia)). Qed.
(** C89.  The lines that are read are those that were written iff none has a line feed in it. *)
Theorem c89_read : forall canon tr ps ls, is_abs canon = true -> listed canon tr ps ls ->
  m3u_lines (flat_map (fun l => l ++ [10]) ls) = ls <-> Forall (fun l => ~ In 10 l) ls.
Proof.
  intros canon tr ps ls HA HL. split.
  - intro E. rewrite <- E. unfold m3u_lines. pose proof (cut_clean (flat_map (fun l => l ++ [10]) ls)) as HC. rewrite Forall_forall in *. intros x I. apply filter_In in I as [I _]. now apply HC.
  - intro H. unfold m3u_lines. rewrite cut_lines by easy. rewrite filter_app. cbn [filter useful]. rewrite app_nil_r. clear H. induction HL as [|i t p ps ls _ _ IH|]; [easy| |easy]. cbn [filter].
    destruct (display_abs _ (join_abs canon (unrooted (utf8_enc p)) HA)) as (r & ->). cbn [useful]. change (negb (47 =? 35)) with true. cbn iota. now rewrite IH.
Qed.
Print Assumptions c89_read.

Lemma strip_utf8 p : utf8 p -> utf8 (unrooted p).
Proof.
  intro H. apply display_same. apply display_same in H. unfold unrooted. destruct p as [|x r]; [easy|]. destruct (N.eqb_spec x 47) as [->|NX]; [|easy].
  pose proof (display_app 47 r [] ltac:(lia)) as E. cbn [List.app] in E. rewrite H in E. cbn in E. injection E as E. now symmetry.
Qed.
Lemma needs_sep_render l : Forall named l -> needs_sep (render l) = match l with [] => false | _ => true end.
Proof.
  intro H. destruct l as [|c l]; [reflexivity|]. destruct (exists_last (l := c :: l) ltac:(easy)) as (l' & x & E). rewrite E in H |- *. apply Forall_app in H as [_ H]. apply Forall_cons_iff in H as [((H1 & _) & H2) _].
  assert (render (l' ++ [x]) = flat_map (fun c => 47 :: c) l' ++ 47 :: x) as -> by (unfold render; destruct (l' ++ [x]) eqn:E'; [now destruct l'|]; rewrite <- E', flat_map_app; cbn [flat_map]; now rewrite app_nil_r).
  unfold needs_sep. destruct (flat_map (fun c => 47 :: c) l' ++ 47 :: x) as [|y z] eqn:E'; [now destruct (flat_map (fun c => 47 :: c) l')|]. rewrite <- E'.
  destruct (exists_last H1) as (x' & z' & ->). change (47 :: x' ++ [z']) with ((47 :: x') ++ [z']). rewrite app_assoc, last_last. destruct (N.eqb_spec z' 47) as [->|NZ]; [|easy]. exfalso. apply H2. apply in_or_app. right. now left.
Qed.
Lemma display_render l : display (render l) = render (map display l).
Proof.
  destruct l as [|c l]; [reflexivity|]. unfold render. cbn [map]. change (display c :: map display l) with (map display (c :: l)). generalize (c :: l) as k. clear. intro k.
  assert (forall a, display (a ++ flat_map (fun c => 47 :: c) k) = display a ++ flat_map (fun c => 47 :: c) (map display k)) as H; [|exact (H [])].
  induction k as [|c k IH]; intro a; [cbn [flat_map map]; now rewrite !app_nil_r|]. cbn [flat_map map]. cbn [List.app]. rewrite display_app by lia. now rewrite IH.
Qed.
Lemma map_display_same l : map display l = l <-> Forall utf8 l.
Proof.
  induction l as [|c l IH]; [easy|]. cbn [map]. rewrite Forall_cons_iff, <- IH, <- display_same. split; [now intros [= E1 E2]|now intros [-> ->]].
Qed.
(** The line of a track in terms of the names of the directories.  It leads to the place of the track below the device from everywhere, iff these names are text. *)
Theorem c89_line : forall l track, Forall named l -> ustr_ok track -> is_abs (unrooted (utf8_enc track)) = false ->
  let line := display (join (render l) (unrooted (utf8_enc track))) in
  line = join (render (map display l)) (unrooted (utf8_enc track)) /\ is_abs line = true /\
  (In 10 line -> In 10 track \/ exists c, In c l /\ In 10 c) /\
  forall cwd, locate cwd line = fold_left step (pieces (utf8_enc track)) (map display l) /\
    (Forall real (pieces (utf8_enc track)) -> (locate cwd line = l ++ pieces (utf8_enc track) <-> Forall utf8 l)).
Proof.
  intros l track HL HT HA line. assert (Forall named (map display l)) as HL' by (apply Forall_map; revert HL; apply Forall_impl; intros; now apply display_named).
  assert (utf8 (unrooted (utf8_enc track))) as HU by (apply strip_utf8; now exists track). apply display_same in HU.
  assert (line = join (render (map display l)) (unrooted (utf8_enc track))) as EL.
  { unfold line, join. rewrite HA, !needs_sep_render by easy. destruct l as [|c l].
    - cbn [map]. change (display (47 :: unrooted (utf8_enc track)) = 47 :: unrooted (utf8_enc track)). pose proof (display_app 47 (unrooted (utf8_enc track)) [] ltac:(lia)) as E. cbn [List.app] in E. rewrite E, HU. reflexivity.
    - cbn [map]. cbn [List.app]. rewrite display_app by lia. rewrite HU, display_render. reflexivity. }
  assert (forall cwd, locate cwd line = fold_left step (pieces (utf8_enc track)) (map display l)) as HLO.
  { intro cwd. rewrite EL. exact (proj1 (proj2 (c87_lines (map display l) cwd [] (utf8_enc track) HL' HA))). }
  split; [exact EL|]. split; [rewrite EL; exact (proj1 (c87_lines (map display l) [] [] (utf8_enc track) HL' HA))|]. split.
  - intro I. apply display_in in I; [|lia]. unfold join in I. rewrite HA in I. apply in_app_or in I as [I|I].
    + right. destruct l as [|c l]; [destruct I as [I|[]]; discriminate I|]. unfold render in I. apply in_flat_map in I as (x & I1 & [I2|I2]); [discriminate I2|]. now exists x.
    + left. apply in_app_or in I as [I|I]; [destruct (needs_sep (render l)); [destruct I as [I|[]]; discriminate I|easy]|]. apply (in_utf8 10); [lia|]. unfold unrooted in I. destruct (utf8_enc track) as [|x r]; [easy|].
      destruct (x =? 47); [now right|easy].
  - intro cwd. split; [apply HLO|]. intro HR. rewrite HLO, step_names by easy. rewrite <- map_display_same. split; [intro E; now apply app_inv_tail in E|now intros ->].
Qed.
Print Assumptions c89_line.

(** ** On the file system *)
Lemma enter_there cwd f : sound cwd f -> forall l, Forall real l -> f l = Some EDir -> enter f [] l = inl l.
Proof.
  intros (H0 & _ & HU). induction l as [|c l IH] using rev_ind; intros HR HD; [easy|]. apply Forall_app in HR as [HR HC]. apply Forall_cons_iff in HC as [HC _]. pose proof (HU _ _ _ HD) as HL.
  rewrite enter_app, (IH HR HL). cbn [enter]. now rewrite real_dot, real_dotdot, HD by easy.
Qed.
Definition proper (c : path) : Prop := named c /\ ~ In 0 c.
Lemma step_proper l c : Forall proper l -> ~ In 47 c -> ~ In 0 c -> Forall proper (step l c).
Proof.
  intros HL H1 H2. unfold step. destruct (bytes_eqb c []) eqn:E0; [easy|]. destruct (bytes_eqb c [46]) eqn:E1; [easy|]. cbn [orb]. destruct (bytes_eqb c [46; 46]) eqn:E2.
  - clear - HL. induction HL as [|x l H HL IH]; [constructor|]. cbn [removelast]. destruct l; [constructor|]. now constructor.
  - apply Forall_app. split; [easy|]. constructor; [|constructor]. apply bytes_eqb_false in E0, E1, E2. now repeat split.
Qed.
Lemma split_nul p x : ~ In x p -> Forall (fun c => ~ In x c) (split p).
Proof.
  induction p as [|c p IH]; intro H; [repeat constructor; easy|]. assert (~ In x p) as HP by (intro I; apply H; now right). specialize (IH HP). cbn [split]. destruct (c =? 47); [constructor; easy|].
  destruct (split p) as [|y ys]; [constructor; [|constructor]; intros [E|[]]; apply H; now left|]. apply Forall_cons_iff in IH as [HY IH]. constructor; [|easy]. intros [E|E]; [apply H; now left|now apply HY].
Qed.
Lemma locate_proper cwd p : Forall proper cwd -> ~ In 0 p -> Forall proper (locate cwd p).
Proof.
  intros HC H0. unfold locate. pose proof (split_no_slash p) as HS. pose proof (split_nul p 0 H0) as HZ. assert (Forall proper (if is_abs p then [] else cwd)) as HI by now destruct (is_abs p).
  generalize dependent (if is_abs p then [] else cwd). induction (split p) as [|c cs IH]; intros l HL; [easy|]. apply Forall_cons_iff in HS as [S1 S2], HZ as [Z1 Z2]. cbn [fold_left]. apply IH; [easy|easy|]. now apply step_proper.
Qed.
Lemma has_nul_in p : has_nul p = false <-> ~ In 0 p.
Proof.
  unfold has_nul. split.
  - intros H I. assert (existsb (N.eqb 0) p = true) as T; [apply existsb_exists; now exists 0|]. now rewrite H in T.
  - intro H. destruct (existsb (N.eqb 0) p) eqn:E; [|easy]. apply existsb_exists in E as (x & I & E). apply N.eqb_eq in E. subst x. now destruct H.
Qed.
Lemma keep_named l : Forall named l -> filter (fun c => negb (bytes_eqb c [])) l = l.
Proof. induction 1 as [|x k ((H1 & _) & _) _ IH]; [easy|]. cbn [filter]. rewrite (proj2 (bytes_eqb_false x []) H1). cbn [negb]. now rewrite IH. Qed.
Lemma pieces_render l : Forall named l -> pieces (render l) = l.
Proof.
  intro H. destruct l as [|c l]; [reflexivity|]. unfold pieces. rewrite render_split by easy. change (filter (fun c => negb (bytes_eqb c [])) ([] :: c :: l)) with (filter (fun c => negb (bytes_eqb c [])) (c :: l)). now apply keep_named.
Qed.
Lemma in_join x p q : x <> 47 -> In x (join p q) -> In x p \/ In x q.
Proof.
  intros HX I. unfold join in I. destruct (is_abs q); [now right|]. apply in_app_or in I as [I|I]; [now left|]. apply in_app_or in I as [I|I]; [destruct (needs_sep p); [destruct I as [I|[]]; now destruct HX|easy]|now right].
Qed.
Lemma join_in x p q : is_abs q = false -> In x p \/ In x q -> In x (join p q).
Proof. intros HA [I|I]; unfold join; rewrite HA; apply in_or_app; [now left|right; apply in_or_app; now right]. Qed.
Lemma last_app_ne {A} (a b : list A) d : b <> [] -> last (a ++ b) d = last b d.
Proof. intro H. destruct (exists_last H) as (b' & x & ->). now rewrite app_assoc, !last_last. Qed.
Lemma locate_render cwd l : Forall named l -> locate cwd (render l) = l.
Proof.
  intro H. rewrite locate_pieces, pieces_render by easy. assert (start cwd (render l) = []) as -> by (unfold start, render; now destruct l). apply step_names. revert H. apply Forall_impl. now intros a [X _].
Qed.
(** What can be opened below a directory can be opened below its canonical path, from everywhere. *)
Lemma open_below cwd f p q bs : sound cwd f -> Forall proper cwd -> is_abs q = false -> ~ In 0 p -> open_file f cwd (join p q) = OpenFile bs -> (exists l, enter f (start cwd p) (pieces p) = inl l) ->
  forall cwd', open_file f cwd' (join (render (locate cwd p)) q) = OpenFile bs.
Proof.
  intros HS HC HA HP HO (l0 & HE) cwd'. pose proof (locate_proper cwd p HC HP) as HL. assert (Forall named (locate cwd p)) as HN by (revert HL; apply Forall_impl; now intros a [X _]).
  pose proof (enter_locate _ _ _ _ (pieces_all p) HE) as E0. rewrite <- locate_pieces in E0. subst l0.
  assert (f (locate cwd p) = Some EDir) as HD. { apply (enter_sound cwd f HS (pieces p) (start cwd p)); [|exact HE]. unfold start. destruct HS as (H0 & H1 & _). now destruct (is_abs p). }
  assert (Forall real (locate cwd p)) as HR by (revert HN; apply Forall_impl; now intros a [X _]). pose proof (enter_there cwd f HS _ HR HD) as ER.
  unfold open_file in *. destruct (has_nul (join p q)) eqn:E1; [easy|]. apply has_nul_in in E1.
  assert (has_nul (join (render (locate cwd p)) q) = false) as ->.
  { apply has_nul_in. intro I. apply in_join in I as [I|I]; [|apply E1; apply join_in; [easy|now right]|discriminate]. unfold render in I. destruct (locate cwd p) as [|c l] eqn:EL; [destruct I as [I|[]]; discriminate I|].
    apply in_flat_map in I as (x & I1 & [I2|I2]); [discriminate I2|]. rewrite Forall_forall in HL. now apply (HL x I1). }
  rewrite pieces_join in * by easy. rewrite pieces_render by easy.
  assert (is_abs (join (render (locate cwd p)) q) = true) as HJ by (apply join_abs; unfold render; now destruct (locate cwd p)).
  assert (start cwd' (join (render (locate cwd p)) q) = []) as -> by (unfold start; now rewrite HJ).
  assert (start cwd (join p q) = start cwd p) as ES.
  { unfold start, join. rewrite HA. destruct p as [|x p]; [|rewrite is_abs_app by discriminate; reflexivity]. cbn [List.app needs_sep]. rewrite HA. reflexivity. }
  rewrite ES in HO. rewrite rev_app_distr in *. destruct (rev (pieces q)) as [|c r] eqn:EQ.
  - exfalso. cbn [List.app] in HO. assert (q = []) as ->.
    { apply (f_equal (@rev _)) in EQ. rewrite rev_involutive in EQ. cbn in EQ. destruct q as [|x q]; [easy|]. exfalso. unfold pieces in EQ. cbn [split] in EQ. destruct (N.eqb_spec x 47) as [->|NX]; [discriminate HA|].
      destruct (split q) as [|y ys]; [discriminate EQ|]. cbn [filter] in EQ. rewrite (proj2 (bytes_eqb_false (x :: y) []) ltac:(discriminate)) in EQ. discriminate EQ. }
    unfold join in HO. cbn [is_abs] in HO. rewrite app_nil_r in HO. destruct p as [|x p]; [easy|]. assert (last ((x :: p) ++ (if needs_sep (x :: p) then [47] else [])) 0 =? 47 = true) as HLA.
    { unfold needs_sep. destruct (last (x :: p) 0 =? 47) eqn:E; cbn [negb]; [now rewrite app_nil_r|]. now rewrite last_last. }
    destruct (rev (pieces (x :: p))) as [|c r]; [easy|]. destruct (enter f (start cwd (x :: p)) (rev r)) as [l|]; [|easy]. destruct (bytes_eqb c dot || bytes_eqb c dotdot); [easy|].
    destruct (f (l ++ [c])) as [[|c']|]; [easy| |easy]. now rewrite HLA in HO.
  - cbn [List.app] in *. rewrite rev_app_distr, rev_involutive in *. rewrite enter_app, HE in HO. rewrite enter_app, ER. destruct (enter f (locate cwd p) (rev r)) as [l|]; [|easy].
    destruct (bytes_eqb c dot || bytes_eqb c dotdot); [easy|]. destruct (f (l ++ [c])) as [[|c']|]; [easy| |easy]. assert (q <> []) as NQ by (intros ->; discriminate EQ).
    assert (forall a, last (join a q) 0 = last q 0) as HLA by (intro a; unfold join; rewrite HA; now rewrite app_assoc, last_app_ne). now rewrite HLA in *.
Qed.

(** The tracks of a list of entries, each with a line for which [R] holds; entries without a track have none. *)
Inductive heard (R : list N -> list N -> Prop) (tr : list (N * list N)) : list (N * N) -> list (list N) -> Prop :=
| heard_nil : heard R tr [] []
| heard_found i t path line ps ls : last_of (fun x => fst x = t) tr (t, path) -> R path line -> heard R tr ps ls -> heard R tr ((i, t) :: ps) (line :: ls)
| heard_missing i t ps ls : ~ In t (map fst tr) -> heard R tr ps ls -> heard R tr ((i, t) :: ps) ls.
Lemma pdb_dir f cwd p io : open_file f cwd (pdb_path p) = OpenFile io -> ~ In 0 p /\ exists l, enter f (start cwd p) (pieces p) = inl l.
Proof.
  unfold open_file. destruct (has_nul (pdb_path p)) eqn:E; [easy|]. apply has_nul_in in E. intro H. split; [intro I; apply E; unfold pdb_path; do 3 (apply join_in; [reflexivity|left]); exact I|].
  unfold pdb_path in H. rewrite !pieces_join in H by reflexivity. change (pieces (bytes_of "export.pdb")) with [bytes_of "export.pdb"] in H. rewrite rev_app_distr in H. cbn [rev List.app] in H. rewrite rev_involutive in H.
  assert (start cwd (join (join (join p (bytes_of "PIONEER")) (bytes_of "rekordbox")) (bytes_of "export.pdb")) = start cwd p) as ES.
  { assert (forall a n, is_abs (bytes_of n) = false -> start cwd (join a (bytes_of n)) = start cwd a) as HJ. { intros a n HA. unfold start, join. rewrite HA. destruct a as [|x a]; [|now rewrite is_abs_app]. cbn [List.app needs_sep]. now rewrite HA. }
    now rewrite !HJ. }
  rewrite ES in H. rewrite <- app_assoc, enter_app in H. destruct (enter f (start cwd p) (pieces p)) as [l|]; [now exists l|easy].
Qed.
(** After an export that succeeded: a player that is given the file of a playlist opens, from any directory, for each of its entries in ascending order the file that the path of the track leads to
    below the directory of the device.  The names of the directories and the paths must be text without line feeds. *)
Theorem c89_plays : forall F readF lex b depth w cwd f p out o f' io, sound cwd f -> Forall proper cwd -> execute F readF lex b depth w cwd f (ExportPlaylists p out) o Success f' ->
  open_file f cwd (pdb_path p) = OpenFile io -> bytes_ok io -> Forall utf8 (locate cwd p) -> Forall (fun c => ~ In 10 c) (locate cwd p) ->
  exists d rn re rt ns es raw tr ts, db_open io DbPlain = DOk d /\ table_in b DbPlain (db_header d) io KPlaylistTreeNode (DOk rn) /\
    table_in b DbPlain (db_header d) io KPlaylistEntry (DOk re) /\ table_in b DbPlain (db_header d) io KTrack (DOk rt) /\
    Forall2 (fun r x => node_of_row r = Some x) rn ns /\ Forall2 (fun r x => pentry_of_row r = Some x) re es /\ Forall2 (fun r x => track_of_row r = Some x) rt raw /\
    Forall2 (fun x y => fst x = fst y /\ dstr_into_string (snd x) = inl (snd y)) raw tr /\ playlist_tree depth ns = Some (Done ts) /\
    (Forall safe ts -> NoDup (map (fun x => dir_of [] (fst (fst x)) ++ [m3u (snd x)]) (flat_map (playlists []) ts)) -> Forall (fun x => ~ In 10 (snd x)) tr ->
     forall above id name, In (above, id, name) (flat_map (playlists []) ts) -> exists bs ps,
       f' (dir_of (locate cwd out) above ++ [m3u name]) = Some (EFile bs) /\
       StronglySorted (fun x y => fst x < fst y) ps /\
       (forall i t, In (i, t) ps <-> last_of (fun e => pe_playlist e = id /\ pe_index e = i) es (mk_pentry i t id)) /\
       heard (fun path line => forall cwd' c, let q := join p (unrooted (utf8_enc path)) in
          open_file f cwd q = OpenFile c -> ~ is_m3u (locate cwd q) -> open_file f' cwd' line = OpenFile c) tr ps (m3u_lines bs)).
Proof.
  intros F readF lex b depth w cwd f p out o f' io HS HC HX HO HB HU HN.
  destruct (c87_export F readF lex b depth w cwd f p out o f' io HX HO HB) as (d & rn & re & rt & ns & es & raw & tr & ts & D & T1 & T2 & T3 & F1 & F2 & F3 & F4 & PT & H).
  exists d, rn, re, rt, ns, es, raw, tr, ts. do 9 (split; [easy|]). intros SA ND NL above id name I. destruct (H SA ND above id name I) as (ps & ls & EF & SO & IN & LI). clear H.
  pose proof (tracks_text b DbPlain (db_header d) io rt raw tr HB T3 F3 F4) as TX. destruct (pdb_dir f cwd p io HO) as [NP HE].
  pose proof (locate_proper cwd p HC NP) as HL. assert (Forall named (locate cwd p)) as HM by (revert HL; apply Forall_impl; now intros a [X _]).
  assert (is_abs (render (locate cwd p)) = true) as AR by (unfold render; now destruct (locate cwd p)).
  assert (map display (locate cwd p) = locate cwd p) as ED by now apply map_display_same.
  assert (forall t path, last_of (fun x => fst x = t) tr (t, path) -> ustr_ok path /\ ~ In 10 path) as HT.
  { intros t path (l1 & l2 & E & _). subst tr. rewrite Forall_forall in TX, NL. split; [apply (TX (t, path))|apply (NL (t, path))]; apply in_or_app; right; now left. }
  assert (forall t path, last_of (fun x => fst x = t) tr (t, path) -> let line := display (join (render (locate cwd p)) (unrooted (utf8_enc path))) in
    ~ In 10 line /\ line = join (render (locate cwd p)) (unrooted (utf8_enc path))) as HLN.
  { intros t path LT line. destruct (HT t path LT) as [H1 H2]. destruct (is_abs (unrooted (utf8_enc path))) eqn:EA.
    - assert (line = unrooted (utf8_enc path)) as EL. { unfold line, join. rewrite EA. apply display_same, strip_utf8. now exists path. }
      split; [|unfold join; now rewrite EA]. rewrite EL. intro J. apply H2. apply (in_utf8 10); [lia|]. unfold unrooted in J. destruct (utf8_enc path) as [|x r]; [easy|]. destruct (x =? 47); [now right|easy].
    - destruct (c89_line (locate cwd p) path HM H1 EA) as (L1 & _ & L3 & _). fold line in L1, L3. split; [|now rewrite L1, ED]. intro J. destruct (L3 J) as [J1|(c & J1 & J2)]; [easy|]. rewrite Forall_forall in HN. now apply (HN c J1). }
  assert (m3u_lines (flat_map (fun l => l ++ [10]) ls) = ls) as EM.
  { apply (c89_read (render (locate cwd p)) tr ps ls AR LI). clear - LI HLN. induction LI as [|i t path ps ls LT LI IH|]; [constructor| |easy]. constructor; [exact (proj1 (HLN t path LT))|easy]. }
  exists (flat_map (fun l => l ++ [10]) ls), ps. split; [easy|]. split; [easy|]. split; [easy|]. rewrite EM. clear - HLN HS HC HX HE NP LI HM.
  induction LI as [|i t path ps ls LT LI IH|i t ps ls NT LI IH]; [constructor| |now constructor]. apply (heard_found _ _ i t path); [easy| |easy]. intros cwd' c q OQ NM. rewrite (proj2 (HLN t path LT)).
  assert (open_file f cwd' (join (render (locate cwd p)) (unrooted (utf8_enc path))) = OpenFile c /\ locate cwd' (join (render (locate cwd p)) (unrooted (utf8_enc path))) = locate cwd q) as [OL EL].
  { unfold q in *. destruct (is_abs (unrooted (utf8_enc path))) eqn:EA.
    - unfold join in *. rewrite EA in *. unfold open_file, start, locate in *. now rewrite EA in *.
    - split; [now apply (open_below cwd f p)|]. rewrite !locate_join by easy. now rewrite locate_render. }
  apply c87_files in HX as [_ HF]. destruct (open_file_at f cwd' _ c OL) as [HA HB]. rewrite EL in HA, HB. apply HB.
  - intros l E. specialize (HF l). now rewrite E in HF.
  - specialize (HF (locate cwd q)). rewrite HA in HF. now apply HF.
Qed.
Print Assumptions c89_plays.

(** ** Example: the stick of C87 with its two tracks; the playlist is read and the tracks are opened from another directory *)
Definition usb2 : files := put (put usb [bytes_of "usb"; bytes_of "a.mp3"] (EFile [1; 2; 3])) [bytes_of "usb"; bytes_of "b.mp3"] (EFile [4; 5]).
Lemma usb2_sound : sound [bytes_of "usb"] usb2.
Proof.
  split; [reflexivity|]. split; [reflexivity|]. intros l x e H. unfold usb2, put, usb in H.
  repeat match type of H with (if loc_eq_dec (l ++ [x]) ?k then _ else _) = _ =>
    destruct (loc_eq_dec (l ++ [x]) k) as [Z|_]; [first [now destruct l|apply (app_inj_tail l (removelast k) x (last k [])) in Z as [-> _]; reflexivity]|] end.
  discriminate H.
Qed.
Example c89_plan : plan Debug 4 usb2 [bytes_of "usb"] (bytes_of ".") (bytes_of "lists") = Some (Done
  [MkDirs (bytes_of "lists/Sets"); WriteFile (bytes_of "lists/Sets/Deep.m3u") (bytes_of "/usb/b.mp3" ++ [10] ++ bytes_of "/usb/a.mp3" ++ [10]);
   MkDirs (bytes_of "lists"); WriteFile (bytes_of "lists/Mix.m3u") []]).
Proof. vm_compute. reflexivity. Qed.
Example c89_example : forall F readF lex w, exists f', sound [bytes_of "usb"] usb2 /\ Forall proper [bytes_of "usb"] /\
  execute F readF lex Debug 4 w [bytes_of "usb"] usb2 (ExportPlaylists (bytes_of ".") (bytes_of "lists"))
    (PPaths F (bytes_of "lists/Sets/Deep.m3u" ++ [10] ++ bytes_of "lists/Mix.m3u" ++ [10])) Success f' /\
  open_file usb2 [bytes_of "usb"] (pdb_path (bytes_of ".")) = OpenFile c76_io /\ bytes_ok c76_io /\ Forall utf8 (locate [bytes_of "usb"] (bytes_of ".")) /\ Forall (fun c => ~ In 10 c) (locate [bytes_of "usb"] (bytes_of ".")) /\
  open_file usb2 [bytes_of "usb"] (join (bytes_of ".") (unrooted (utf8_enc (bytes_of "/a.mp3")))) = OpenFile [1; 2; 3] /\ ~ is_m3u (locate [bytes_of "usb"] (join (bytes_of ".") (unrooted (utf8_enc (bytes_of "/a.mp3"))))) /\
  exists bs, f' [bytes_of "usb"; bytes_of "lists"; bytes_of "Sets"; bytes_of "Deep.m3u"] = Some (EFile bs) /\ map (open_file f' [bytes_of "etc"]) (m3u_lines bs) = [OpenFile [4; 5]; OpenFile [1; 2; 3]].
Proof.
  intros F readF lex w. destruct (perform [bytes_of "usb"] usb2 [MkDirs (bytes_of "lists/Sets"); WriteFile (bytes_of "lists/Sets/Deep.m3u") (bytes_of "/usb/b.mp3" ++ [10] ++ bytes_of "/usb/a.mp3" ++ [10]);
   MkDirs (bytes_of "lists"); WriteFile (bytes_of "lists/Mix.m3u") []]) as [f' r] eqn:E.
  assert (r = None) as -> by (apply (f_equal snd) in E; vm_compute in E; now symmetry). pose proof (perform_log _ _ _ _ E) as R. exists f'. split; [exact usb2_sound|].
  split. { constructor; [|constructor]. split; [|cbn; intuition discriminate]. split; [repeat split; discriminate|]. cbn. intuition discriminate. }
  split; [exact (Main.ex_export F readF lex _ _ w _ _ _ _ _ _ _ true c89_plan R)|]. split; [vm_compute; reflexivity|]. split; [exact c76_bytes|].
  split. { constructor; [|constructor]. apply display_same. vm_compute. reflexivity. } split. { constructor; [|constructor]. cbn. intuition discriminate. }
  split; [vm_compute; reflexivity|]. split. { intro M. apply (m3u_last [bytes_of "usb"]), ends_suffix in M. vm_compute in M. discriminate M. }
  apply (f_equal fst) in E. cbn [fst] in E. rewrite <- E. exists (bytes_of "/usb/b.mp3" ++ [10] ++ bytes_of "/usb/a.mp3" ++ [10]). split; vm_compute; reflexivity.
Qed.
(** A path with a line feed in it: the player gets lines that the database does not speak of.  The stick is in a directory whose name is not UTF-8 (here "é" in Latin-1): the line leads elsewhere. *)
Theorem c89_line_feed_refuted : exists canon tr ps ls, is_abs canon = true /\ Forall (fun x => ustr_ok (snd x)) tr /\ listed canon tr ps ls /\
  m3u_lines (flat_map (fun l => l ++ [10]) ls) = [bytes_of "/usb/a"; bytes_of "/etc/b"] /\ map snd tr = [bytes_of "/a" ++ [10] ++ bytes_of "/etc/b"].
Proof.
  exists (bytes_of "/usb"), [(1, bytes_of "/a" ++ [10] ++ bytes_of "/etc/b")], [(1, 1)], [bytes_of "/usb/a" ++ [10] ++ bytes_of "/etc/b"]. split; [reflexivity|]. split; [repeat constructor|].
  split; [|split; reflexivity]. apply (listed_found (bytes_of "/usb") [(1, bytes_of "/a" ++ [10] ++ bytes_of "/etc/b")] 1 1 (bytes_of "/a" ++ [10] ++ bytes_of "/etc/b") [] []); [|constructor].
  exists [], []. split; [easy|]. split; [easy|constructor].
Qed.
Print Assumptions c89_line_feed_refuted.
Theorem c89_place_refuted : exists l track, Forall proper l /\ ustr_ok track /\ is_abs (unrooted (utf8_enc track)) = false /\ Forall real (pieces (utf8_enc track)) /\
  forall cwd, locate cwd (display (join (render l) (unrooted (utf8_enc track)))) <> l ++ pieces (utf8_enc track).
Proof.
  exists [[0xE9]], (bytes_of "/a.mp3"). split. { constructor; [|constructor]. split; [|cbn; intuition discriminate]. split; [repeat split; discriminate|]. cbn. intuition discriminate. }
  split; [repeat constructor|]. split; [reflexivity|]. split; [constructor; [|constructor]; repeat split; discriminate|]. intros cwd E. vm_compute in E. discriminate E.
Qed.
Print Assumptions c89_place_refuted.
