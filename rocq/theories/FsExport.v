(** * When an export succeeds *)
From Coq Require Import NArith ZArith List Bool Lia String.
From Coq Require Import ZifyBool ZifyNat ZifyN.
From Verif Require Import Base BaseFacts Utf Str Device DeviceTree Cli CliFacts Fs FsFacts.
Import ListNotations.
Local Close Scope string_scope.
Open Scope N_scope.

Definition no_file (f : files) (l : loc) : Prop := forall c, f l <> Some (EFile c).
(** [r] is a nonempty beginning of [ns]. *)
Definition begins (r ns : list path) : Prop := r <> [] /\ exists q, ns = r ++ q.
Lemma begins_cons c r ns : begins r ns -> begins (c :: r) (c :: ns).
Proof. intros (_ & q & ->). split; [easy|]. now exists q. Qed.
Lemma begins_app r ns q : begins r ns -> begins r (ns ++ q).
Proof. intros (H & x & ->). split; [easy|]. exists (x ++ q). now rewrite <- app_assoc. Qed.
Lemma begins_all ns : ns <> [] -> begins ns ns.
Proof. intro H. split; [easy|]. exists []. now rewrite app_nil_r. Qed.
Lemma enter_names f : forall ns b, Forall real ns -> (forall r, begins r ns -> no_file f (b ++ r)) -> enter f b ns = inl (b ++ ns) \/ enter f b ns = inr NotFound.
Proof.
  induction ns as [|c ns IH]; intros b HR HF; [left; cbn; now rewrite app_nil_r|]. apply Forall_cons_iff in HR as [HC HR]. cbn [enter]. rewrite real_dot, real_dotdot by easy.
  assert (no_file f (b ++ [c])) as H0 by (apply HF; split; [easy|now exists ns]). destruct (f (b ++ [c])) as [[|x]|] eqn:E; [|now destruct (H0 x)|now right].
  destruct (IH (b ++ [c]) HR) as [->| ->]; [|left; now rewrite <- app_assoc|now right]. intros r Hr. rewrite <- app_assoc. now apply HF, begins_cons.
Qed.
Lemma enter_dirs f : forall ns b l, Forall real ns -> enter f b ns = inl l -> forall r, begins r ns -> f (b ++ r) = Some EDir.
Proof.
  induction ns as [|c ns IH]; intros b l HR HE r (HN & q & HQ); [now destruct r|]. apply Forall_cons_iff in HR as [HC HR]. cbn [enter] in HE. rewrite real_dot, real_dotdot in HE by easy.
  destruct r as [|d r]; [easy|]. injection HQ as <- HQ. destruct (f (b ++ [c])) as [[|x]|] eqn:E; [|easy|easy]. destruct r as [|d r]; [easy|].
  specialize (IH (b ++ [c]) l HR HE (d :: r)). rewrite <- app_assoc in IH. apply IH. split; [easy|now exists q].
Qed.
Lemma drop_dots_real c r : real c -> drop_dots (c :: r) = c :: r.
Proof. intro H. cbn [drop_dots]. now rewrite real_dot. Qed.
Lemma parent_names o ns c d : real c -> real d -> parent (o ++ (ns ++ [d]) ++ [c]) = o ++ ns ++ [d].
Proof.
  intros HC HD. unfold parent. rewrite !rev_app_distr. cbn [rev List.app]. rewrite (drop_dots_real c) by easy. cbn [tl]. rewrite (drop_dots_real d) by easy.
  cbn [rev]. now rewrite rev_app_distr, !rev_involutive, <- app_assoc.
Qed.
Definition new_dirs (b : loc) (ns : list path) (f f1 : files) : Prop := forall l, f1 l = f l \/ (f l = None /\ f1 l = Some EDir /\ exists r, begins r ns /\ l = b ++ r).
Lemma new_dirs_stay b ns f f1 : new_dirs b ns f f1 -> dirs_stay f f1.
Proof. intros H l E. destruct (H l) as [->|(A & _)]; [easy|congruence]. Qed.
Lemma new_dirs_app b ns q f f1 : new_dirs b ns f f1 -> new_dirs b (ns ++ q) f f1.
Proof. intros H l. destruct (H l) as [E|(A & B & r & C & D)]; [now left|]. right. split; [easy|]. split; [easy|]. exists r. split; [now apply begins_app|easy]. Qed.
Lemma put_stay f l e : f l = None -> dirs_stay f (put f l e).
Proof. intros H x E. rewrite put_other; [easy|]. congruence. Qed.
Lemma mkdir_name f s o l c : enter f s o = inl l -> real c -> no_file f (l ++ [c]) ->
  exists f1, (mkdir f s (o ++ [c]) = inl f1 \/ (mkdir f s (o ++ [c]) = inr Exists /\ f1 = f)) /\ enter f1 s (o ++ [c]) = inl (l ++ [c]) /\
    forall x, f1 x = f x \/ (f x = None /\ f1 x = Some EDir /\ x = l ++ [c]).
Proof.
  intros HE HC HF. rewrite mkdir_snoc, HE, (real_dot c HC), (real_dotdot c HC). cbn [orb]. destruct (f (l ++ [c])) as [[|x]|] eqn:E.
  - exists f. split; [now right|]. split; [|now left]. rewrite enter_app, HE. cbn [enter]. now rewrite real_dot, real_dotdot, E.
  - now destruct (HF x).
  - exists (put f (l ++ [c]) EDir). split; [now left|]. split.
    + rewrite enter_app. rewrite (enter_mono f) with (l' := l); [|now apply put_stay|easy]. cbn [enter]. now rewrite real_dot, real_dotdot, put_same.
    + intro x. destruct (loc_eq_dec x (l ++ [c])) as [->|NE]; [right; rewrite put_same; easy|left; now apply put_other].
Qed.
(** Names below a directory: all are made if none is a file. *)
Lemma make_dirs_names s o b f : enter f s o = inl b -> forall ns, Forall real ns -> (forall r, begins r ns -> no_file f (b ++ r)) ->
  forall n, (List.length (o ++ ns) <= n)%nat -> exists f1, make_dirs n f s (o ++ ns) = (f1, None) /\ new_dirs b ns f f1 /\ enter f1 s (o ++ ns) = inl (b ++ ns).
Proof.
  intros HO. induction ns as [|c ns IH] using rev_ind; intros HR HF n HN.
  - rewrite app_nil_r in *. exists f. split; [|split; [intro l; now left|now rewrite app_nil_r]].
    pose proof (rev_cases o) as E. destruct (rev o) as [|x r]; [subst o; now destruct n|]. rewrite E in *. pose proof HO as HO'. rewrite enter_app in HO.
    assert (mkdir f s (rev r ++ [x]) = inr Exists) as EM.
    { rewrite mkdir_snoc. destruct (enter f s (rev r)) as [l|]; [|easy]. cbn [enter] in HO. destruct (bytes_eqb x dot); [easy|]. destruct (bytes_eqb x dotdot); [easy|].
      cbn [orb]. now destruct (f (l ++ [x])) as [[]|]. }
    assert (is_dir f s (rev r ++ [x]) = true) as ED by (unfold is_dir; now rewrite HO').
    destruct (rev r ++ [x]) as [|y q] eqn:EQ; [now destruct (rev r)|]. destruct n as [|n]; cbn [make_dirs]; now rewrite EM, ED.
  - apply Forall_app in HR as [HR HC]. apply Forall_cons_iff in HC as [HC _].
    assert (forall r, begins r ns -> no_file f (b ++ r)) as HF' by (intros r Hr; now apply HF, begins_app).
    assert (no_file f ((b ++ ns) ++ [c])) as HL by (rewrite <- app_assoc; apply HF, begins_all; now destruct ns).
    assert (begins (ns ++ [c]) (ns ++ [c])) as BA by (apply begins_all; now destruct ns).
    destruct n as [|n]; [rewrite !app_length in HN; cbn in HN; lia|]. rewrite !app_assoc. destruct (o ++ ns) as [|y q] eqn:EQ.
    + (* a single name *)
      apply app_eq_nil in EQ as [-> ->]. cbn [List.app make_dirs] in *. injection HO as <-. rewrite app_nil_r in HL |- *.
      destruct (mkdir_name f s [] s c eq_refl HC HL) as (f1 & HM & HE & HX). cbn [List.app] in *. exists f1. split; [|split; [|easy]].
      * destruct HM as [->|(-> & ->)]; [easy|]. unfold is_dir. now rewrite HE.
      * intro l. destruct (HX l) as [E|(A & B & ->)]; [now left|]. right. split; [easy|]. split; [easy|]. now exists [c].
    + cbn [List.app]. change (y :: q ++ [c]) with ((y :: q) ++ [c]). rewrite <- EQ in *. clear y q EQ.
      assert (forall g, new_dirs b ns f g -> enter g s (o ++ ns) = inl (b ++ ns) -> exists f1,
        (mkdir g s ((o ++ ns) ++ [c]) = inl f1 \/ (mkdir g s ((o ++ ns) ++ [c]) = inr Exists /\ f1 = g)) /\ new_dirs b (ns ++ [c]) f f1 /\ enter f1 s ((o ++ ns) ++ [c]) = inl ((b ++ ns) ++ [c])) as HG.
      { intros g HD HE. assert (no_file g ((b ++ ns) ++ [c])) as HL'.
        { intros x E. destruct (HD ((b ++ ns) ++ [c])) as [E2|(_ & E2 & _)]; [rewrite E in E2; symmetry in E2; now apply HL in E2|congruence]. }
        destruct (mkdir_name g s (o ++ ns) _ c HE HC HL') as (f1 & HM & HE1 & HX). exists f1. split; [easy|]. split; [|easy]. intro l.
        destruct (HX l) as [->|(A & B & ->)]; [now apply new_dirs_app|]. right. destruct (HD ((b ++ ns) ++ [c])) as [E|(E & E2 & _)]; [|congruence]. rewrite <- E. split; [easy|]. split; [easy|].
        exists (ns ++ [c]). split; [easy|]. now rewrite <- app_assoc. }
      destruct (enter_names f ns b HR HF') as [EN|EN].
      * destruct (HG f) as (f1 & HM & HD & HE); [intro l; now left|now rewrite enter_app, HO|]. exists f1. rewrite <- app_assoc in HE.
        replace ((o ++ ns) ++ [c]) with (o ++ ns ++ [c]) in * by now rewrite app_assoc. split; [|split; [easy|exact HE]].
        destruct (o ++ ns ++ [c]) as [|y q] eqn:EQ; [now destruct o, ns|]. cbn [make_dirs]. destruct HM as [->|(-> & ->)]; [easy|]. unfold is_dir. now rewrite HE.
      * destruct (exists_last (l := ns)) as (ns' & d & ->); [intros ->; cbn in EN; easy|].
        destruct (IH HR HF' n) as (f0 & E0 & D0 & EE0); [rewrite !app_length in *; cbn in *; lia|]. destruct (HG f0 D0 EE0) as (f1 & HM & HD & HE). exists f1. split; [|split; [easy|exact HE]].
        assert (mkdir f s ((o ++ ns' ++ [d]) ++ [c]) = inr NotFound) as EM by (rewrite mkdir_snoc, enter_app, HO, EN; reflexivity).
        assert (parent ((o ++ ns' ++ [d]) ++ [c]) = o ++ ns' ++ [d]) as EP by (rewrite <- app_assoc; apply parent_names; [easy|]; apply Forall_app in HR as [_ HR]; now apply Forall_cons_iff in HR as [HR _]).
        destruct ((o ++ ns' ++ [d]) ++ [c]) as [|y q] eqn:EQ; [now destruct o, ns'|]. cbn [make_dirs]. rewrite EM, EP, E0. destruct HM as [->|(-> & ->)]; [easy|]. unfold is_dir. now rewrite HE.
Qed.
Lemma create_dirs_eq f cwd p : has_nul p = false -> create_dir_all f cwd p = make_dirs (List.length (pieces p)) f (start cwd p) (pieces p).
Proof. intro H. unfold create_dir_all. destruct p; [reflexivity|]. now rewrite H. Qed.

(** ** The operations for playlists *)
Definition path_of (out : path) (above : list (list N)) : path := fold_left (fun p n => join p (utf8_enc n)) above out.
Lemma walk_list cont out t : forall above, walk cont t (path_of out above) =
  flat_map (fun x => [MkDirs (path_of out (fst (fst x))); WriteFile (join (path_of out (fst (fst x))) (m3u (snd x))) (cont (snd (fst x)))]) (playlists above t).
Proof.
  induction t as [i s ch IH|i s] using pnode_ind2; intro above; cbn [walk playlists]; [|reflexivity]. rewrite flat_map_flat_map. apply flat_map_ext_in. intros c C. rewrite Forall_forall in IH.
  rewrite <- (IH c C). unfold path_of. now rewrite fold_left_app.
Qed.
(** Names without slash and zero; a folder is not called "", "." or "..". *)
Definition plain (name : list N) : Prop := ~ In 47 name /\ ~ In 0 name.
Fixpoint strict (t : pnode) : Prop :=
  match t with
  | PFolder _ name ch => plain name /\ real name /\ fold_right (fun c P => strict c /\ P) True ch
  | PPlaylist _ name => plain name
  end.
Lemma strict_all ch : fold_right (fun c P => strict c /\ P) True ch <-> Forall strict ch.
Proof. induction ch as [|c ch IH]; cbn [fold_right]; [easy|]. rewrite Forall_cons_iff. tauto. Qed.
Definition good (x : list (list N) * N * list N) : Prop := Forall (fun n => plain n /\ real n) (fst (fst x)) /\ plain (snd x).
Lemma strict_playlists t : strict t -> forall above, Forall (fun n => plain n /\ real n) above -> Forall good (playlists above t).
Proof.
  induction t as [i s ch IH|i s] using pnode_ind2; intros HS above HA; cbn [playlists]; [|constructor; [now split|constructor]]. destruct HS as (S1 & S2 & SC). apply strict_all in SC.
  apply Forall_forall. intros x HX. apply in_flat_map in HX as (c & C & HX). rewrite Forall_forall in IH, SC. pose proof (proj1 (Forall_forall _ _) (IH c C (SC c C) (above ++ [s]) (proj2 (Forall_app _ _ _) (conj HA (Forall_cons s (conj S1 S2) (Forall_nil _)))))) as K. now apply K.
Qed.
Lemma utf8_zero s : In 0 (utf8_enc s) <-> In 0 s.
Proof.
  unfold utf8_enc. rewrite in_flat_map. split.
  - intros (c & I & H). unfold utf8_enc1 in H. destruct (c <? 128) eqn:E1; [destruct H as [->|[]]; easy|].
    destruct (c <? 2048); [|destruct (c <? 65536)]; cbn [In] in H; exfalso; repeat (destruct H as [H|H]; [lia|]); exact H.
  - intro H. exists 0. split; [easy|now left].
Qed.
Lemma nul_in p : has_nul p = true <-> In 0 p.
Proof. unfold has_nul. rewrite existsb_exists. split; [intros (x & I & H); apply N.eqb_eq in H; now subst|]. intro H. exists 0. now split. Qed.
Lemma join_zero p q : In 0 (join p q) -> In 0 p \/ In 0 q.
Proof. unfold join. destruct (is_abs q); [now right|]. rewrite !in_app_iff. intros [H|[H|H]]; [now left| |now right]. destruct (needs_sep p); [|easy]. now destruct H. Qed.
Lemma utf8_real s : real s -> real (utf8_enc s).
Proof. intros (H1 & H2 & H3). repeat split; intro E; [now apply utf8_nil in E|apply H2|apply H3]; now apply utf8_is in E. Qed.
Lemma m3u_zero name : In 0 (m3u name) <-> In 0 name.
Proof. unfold m3u. rewrite utf8_zero, in_app_iff. split; [intros [H|H]; [easy|]|tauto]. cbn in H. exfalso. repeat (destruct H as [H|H]; [easy|]). exact H. Qed.
Lemma m3u_real name : real (m3u name).
Proof. rewrite m3u_suffix. apply suffix_real. Qed.
Lemma pieces_snoc p q : ~ In 47 q -> q <> [] -> pieces (join p q) = pieces p ++ [q].
Proof. intros H1 H2. rewrite pieces_join by now apply not_abs. rewrite (pieces_name q) by exact H1. now rewrite (proj2 (bytes_eqb_false q []) H2). Qed.
Lemma path_of_facts cwd : forall above out, has_nul out = false -> Forall (fun n => plain n /\ real n) above ->
  has_nul (path_of out above) = false /\ pieces (path_of out above) = pieces out ++ map utf8_enc above /\ start cwd (path_of out above) = start cwd out /\ Forall real (map utf8_enc above).
Proof.
  induction above as [|n above IH]; intros out HO HA; [cbn; rewrite app_nil_r; now repeat split|]. apply Forall_cons_iff in HA as [((S1 & S2) & HR) HA].
  assert (~ In 47 (utf8_enc n)) as NS by now rewrite utf8_slash. assert (utf8_enc n <> []) as NE by apply (utf8_real n HR).
  assert (has_nul (join out (utf8_enc n)) = false) as NJ.
  { apply not_true_iff_false. rewrite nul_in. intro H. apply join_zero in H as [H|H]; [apply nul_in in H; congruence|now apply (proj1 (utf8_zero _)) in H]. }
  destruct (IH (join out (utf8_enc n)) NJ HA) as (A & B & C & D). cbn [map]. change (path_of out (n :: above)) with (path_of (join out (utf8_enc n)) above).
  split; [easy|]. rewrite B, C, pieces_snoc, start_join by (easy || now apply not_abs). split; [now rewrite <- app_assoc|]. split; [easy|]. constructor; [now apply utf8_real|easy].
Qed.
Lemma file_facts cwd p name : has_nul p = false -> plain name -> let q := join p (m3u name) in
  has_nul q = false /\ pieces q = pieces p ++ [m3u name] /\ start cwd q = start cwd p /\ (last q 0 =? 47) = false.
Proof.
  intros HP (S1 & S2) q. assert (~ In 47 (m3u name)) as NS by now rewrite m3u_slash. split; [|split; [|split]].
  - apply not_true_iff_false. rewrite nul_in. intro H. apply join_zero in H as [H|H]; [apply nul_in in H; congruence|now apply (proj1 (m3u_zero _)) in H].
  - apply pieces_snoc; [easy|]. apply (m3u_real name).
  - now apply start_join, not_abs.
  - unfold q. destruct (join_suffix p name) as (r & ->). change suffix with (bytes_of ".m3" ++ [117]). rewrite app_assoc, last_last. reflexivity.
Qed.
Lemma create_file_name f cwd p q name c l : has_nul q = false -> pieces q = pieces p ++ [name] -> start cwd q = start cwd p -> (last q 0 =? 47) = false -> real name ->
  enter f (start cwd p) (pieces p) = inl l -> f (l ++ [name]) <> Some EDir -> create_file f cwd q c = inl (put f (l ++ [name]) (EFile c)).
Proof.
  intros H1 H2 H3 H4 H5 H6 H7. unfold create_file. rewrite H1, H2, H3, rev_app_distr. cbn [rev List.app]. rewrite rev_involutive, H6, real_dot, real_dotdot, H4 by easy. cbn [orb].
  now destruct (f (l ++ [name])) as [[]|].
Qed.

(** What must hold before: [b] is the directory that the path begins with, [o] the names after it.  No file is where a directory is needed,
    no directory where a file is, and no file of a playlist is a directory of another. *)
Definition below (o : list path) (above : list (list N)) : list path := o ++ map utf8_enc above.
Definition fits (b : loc) (o : list path) (f : files) (pls : list (list (list N) * N * list N)) : Prop := forall x, In x pls ->
  (forall r, begins r (below o (fst (fst x))) -> no_file f (b ++ r)) /\
  f (b ++ below o (fst (fst x)) ++ [m3u (snd x)]) <> Some EDir /\
  (forall y, In y pls -> ~ begins (below o (fst (fst x)) ++ [m3u (snd x)]) (below o (fst (fst y)))).

Definition ops_of (cont : N -> list N) (out : path) (pls : list (list (list N) * N * list N)) : list fsop :=
  flat_map (fun x => [MkDirs (path_of out (fst (fst x))); WriteFile (join (path_of out (fst (fst x))) (m3u (snd x))) (cont (snd (fst x)))]) pls.
Lemma perform_fits cwd out cont o1 o2 b all : has_nul out = false -> pieces out = o1 ++ o2 -> Forall real o2 -> Forall good all ->
  forall pls f, incl pls all -> enter f (start cwd out) o1 = inl b -> fits b o2 f all -> exists f', perform cwd f (ops_of cont out pls) = (f', None).
Proof.
  intros HN HP HR HG. induction pls as [|x pls IH]; intros f HI HE HF; [now exists f|]. change (ops_of cont out (x :: pls)) with ([MkDirs (path_of out (fst (fst x))); WriteFile (join (path_of out (fst (fst x))) (m3u (snd x))) (cont (snd (fst x)))] ++ ops_of cont out pls).
  cbn [perform List.app]. assert (In x all) as IX by (apply HI; now left). rewrite Forall_forall in HG. destruct (HG x IX) as (GA & GN).
  destruct (path_of_facts cwd _ out HN GA) as (A & B & C & D). destruct (file_facts cwd _ (snd x) A GN) as (A2 & B2 & C2 & D2). destruct (HF x IX) as (F1 & F2 & F3).
  rewrite HP, <- app_assoc in B. fold (below o2 (fst (fst x))) in B. set (ns := below o2 (fst (fst x))) in *. assert (Forall real ns) as HNS by (now apply Forall_app).
  rewrite create_dirs_eq by easy. rewrite B, C. destruct (make_dirs_names _ _ _ _ HE ns HNS F1 (List.length (o1 ++ ns)) (le_n _)) as (f1 & -> & ND & E1).
  assert (f1 (b ++ ns ++ [m3u (snd x)]) <> Some EDir) as NDir.
  { intro E. destruct (ND (b ++ ns ++ [m3u (snd x)])) as [E2|(_ & _ & r & Hr & E2)]; [congruence|]. apply app_inv_head in E2. subst r. now apply (F3 x IX). }
  rewrite (create_file_name f1 cwd (path_of out (fst (fst x))) _ (m3u (snd x)) _ (b ++ ns)); [|easy|easy|easy|easy|apply m3u_real|now rewrite B, C|now rewrite <- app_assoc].
  apply IH; [intros y Y; apply HI; now right| |].
  - rewrite <- HE. rewrite HE. apply (enter_mono f1); [|apply (enter_mono f); [now apply new_dirs_stay in ND|easy]]. intros l E. rewrite put_other; [easy|]. intros ->. rewrite <- app_assoc in E. easy.
  - intros y IY. destruct (HF y IY) as (G1 & G2 & G3). split; [|split; [|easy]].
    + intros r Hr c. destruct (loc_eq_dec (b ++ r) ((b ++ ns) ++ [m3u (snd x)])) as [E|NE].
      * exfalso. rewrite <- app_assoc in E. apply app_inv_head in E. subst r. now apply (F3 y IY).
      * rewrite put_other by easy. destruct (ND (b ++ r)) as [->|(_ & -> & _)]; [now apply G1|easy].
    + destruct (loc_eq_dec (b ++ below o2 (fst (fst y)) ++ [m3u (snd y)]) ((b ++ ns) ++ [m3u (snd x)])) as [E|NE]; [rewrite E, put_same; easy|].
      rewrite put_other by easy. intro E. destruct (ND (b ++ below o2 (fst (fst y)) ++ [m3u (snd y)])) as [E2|(_ & _ & r & Hr & E2)]; [congruence|]. apply app_inv_head in E2. subst r.
      now apply (G3 x IX).
Qed.

(** ** After a run that succeeds *)
Lemma changed_dir cwd ops f f' : changed cwd ops f f' -> dirs_stay f f'.
Proof. intros H l E. destruct (H l) as [->|[(A & _)|(A & _)]]; congruence. Qed.
Lemma changed_nofile cwd ops f f' l : changed cwd ops f f' -> f' l = Some EDir -> no_file f l.
Proof. intros H E c E2. destruct (H l) as [E3|[(A & _)|(A & (x & B) & _)]]; congruence. Qed.
Lemma changed_nodir cwd ops f f' l c : changed cwd ops f f' -> f' l = Some (EFile c) -> f l <> Some EDir.
Proof. intros H E E2. pose proof (changed_dir _ _ _ _ H l E2). congruence. Qed.
Lemma run_there cwd f ops f' ok : run cwd f ops f' ok -> ok = true -> forall o, In o ops ->
  match o with MkDirs p => is_dir f' (start cwd p) (pieces p) = true | WriteFile p _ => exists c, f' (locate cwd p) = Some (EFile c) end.
Proof.
  induction 1 as [f|f p f1 ops f2 ok H1 H2 IH|f p f1 e ops H|f p k n f1 ops H|f p ops|f p c f1 ops f2 ok H1 H2 IH|f p c e ops H|f p c k f1 ops H|f p c ops]; intros HK o HO; try easy.
  - destruct HO as [<-|HO]; [|now apply IH]. assert (is_dir f1 (start cwd p) (pieces p) = true) as HD.
    { unfold create_dir_all in H1. destruct p as [|y p]; [easy|]. set (q := y :: p) in *. destruct (has_nul q); [easy|]. now apply make_dirs_dir in H1. }
    unfold is_dir in *. destruct (enter f1 (start cwd p) (pieces p)) as [l|] eqn:E; [|easy]. rewrite (enter_mono f1 f2) with (l' := l); [easy| |easy]. now apply run_changed, changed_dir in H2.
  - destruct HO as [<-|HO]; [|now apply IH]. apply create_file_inv in H1 as (_ & -> & _). apply run_changed in H2. destruct (H2 (locate cwd p)) as [->|[(A & _)|(_ & A & _)]].
    + exists c. apply put_same.
    + rewrite put_same in A. easy.
    + easy.
Qed.
Lemma run_fits cwd out cont o1 o2 b all f f' : has_nul out = false -> pieces out = o1 ++ o2 -> Forall real o2 -> Forall good all ->
  enter f (start cwd out) o1 = inl b -> run cwd f (ops_of cont out all) f' true -> fits b o2 f all.
Proof.
  intros HN HP HR HG HE HRun. pose proof (run_changed _ _ _ _ _ HRun) as HC. pose proof (run_there _ _ _ _ _ HRun eq_refl) as HT. rewrite Forall_forall in HG.
  assert (enter f' (start cwd out) o1 = inl b) as HE' by (apply (enter_mono f); [now apply changed_dir in HC|easy]).
  assert (forall x, In x all -> (forall r, begins r (below o2 (fst (fst x))) -> f' (b ++ r) = Some EDir) /\ exists c, f' (b ++ below o2 (fst (fst x)) ++ [m3u (snd x)]) = Some (EFile c)) as HX.
  { intros x IX. destruct (HG x IX) as (GA & GN). destruct (path_of_facts cwd _ out HN GA) as (A & B & C & D). destruct (file_facts cwd _ (snd x) A GN) as (A2 & B2 & C2 & D2).
    assert (In (MkDirs (path_of out (fst (fst x)))) (ops_of cont out all)) as I1 by (apply in_flat_map; exists x; split; [easy|now left]).
    assert (In (WriteFile (join (path_of out (fst (fst x))) (m3u (snd x))) (cont (snd (fst x)))) (ops_of cont out all)) as I2 by (apply in_flat_map; exists x; split; [easy|right; now left]).
    apply HT in I1, I2. rewrite HP, <- app_assoc in B. fold (below o2 (fst (fst x))) in B. assert (Forall real (below o2 (fst (fst x)))) as HNS by now apply Forall_app.
    unfold is_dir in I1. rewrite B, C, enter_app, HE' in I1. destruct (enter f' b (below o2 (fst (fst x)))) as [l|] eqn:EL; [|easy]. split; [now apply (enter_dirs f' _ b l)|].
    rewrite locate_pieces, B2, C2, B, C in I2. rewrite !fold_left_app in I2. pose proof (pieces_all out) as PA. rewrite HP in PA. apply Forall_app in PA as [PA _].
    rewrite <- (enter_locate f' _ _ _ PA HE') in I2. rewrite (step_names _ b HNS) in I2. cbn [fold_left] in I2. rewrite step_name in I2 by apply m3u_real. now rewrite <- app_assoc in I2. }
  intros x IX. destruct (HX x IX) as (X1 & c & X2). split; [|split].
  - intros r Hr. apply X1 in Hr. now apply (changed_nofile cwd _ f f' _ HC).
  - now apply (changed_nodir cwd _ f f' _ c HC).
  - intros y IY Hr. destruct (HX y IY) as (Y1 & _). apply Y1 in Hr. congruence.
Qed.

(** ** Repeating *)
Lemma make_dirs_there n f s cs : is_dir f s cs = true -> make_dirs n f s cs = (f, None).
Proof.
  intro HD. pose proof (rev_cases cs) as E. destruct (rev cs) as [|x r]; [subst cs; now destruct n|]. subst cs.
  assert (mkdir f s (rev r ++ [x]) = inr Exists) as EM.
  { pose proof HD as HO. unfold is_dir in HO. rewrite enter_app in HO. rewrite mkdir_snoc. destruct (enter f s (rev r)) as [l|]; [|easy]. cbn [enter] in HO.
    destruct (bytes_eqb x dot); [easy|]. destruct (bytes_eqb x dotdot); [easy|]. cbn [orb]. now destruct (f (l ++ [x])) as [[]|]. }
  destruct (rev r ++ [x]) as [|y q] eqn:EQ; [now destruct (rev r)|]. destruct n as [|n]; cbn [make_dirs]; now rewrite EM, HD.
Qed.
Definition ready (cwd : loc) (f : files) (o : fsop) : Prop := forall h, dirs_stay f h ->
  match o with
  | MkDirs p => create_dir_all h cwd p = (h, None)
  | WriteFile p _ => forall c, h (locate cwd p) <> Some EDir -> create_file h cwd p c = inl (put h (locate cwd p) (EFile c))
  end.
Lemma ready_mono cwd f g o : dirs_stay f g -> ready cwd f o -> ready cwd g o.
Proof. intros H R h HH. apply R. intros l E. now apply HH, H. Qed.
Lemma create_file_ready cwd f p c f1 : create_file f cwd p c = inl f1 -> ready cwd f (WriteFile p c).
Proof.
  unfold create_file. intros H h HS c' HN. unfold create_file. destruct (has_nul p); [easy|]. pose proof (rev_cases (pieces p)) as E. destruct (rev (pieces p)) as [|x r]; [now destruct p|].
  destruct (enter f (start cwd p) (rev r)) as [l|] eqn:EE; [|easy]. rewrite (enter_mono f h HS _ _ _ EE). pose proof (pieces_all p) as HP. rewrite E in HP. apply Forall_app in HP as [HP HX]. apply Forall_cons_iff in HX as [HX _].
  pose proof (enter_locate _ _ _ _ HP EE) as EL. destruct (bytes_eqb x dot) eqn:E1; [easy|]. destruct (bytes_eqb x dotdot) eqn:E2; [easy|]. destruct (last p 0 =? 47); [easy|]. cbn [orb].
  assert (locate cwd p = l ++ [x]) as EQ by (rewrite locate_pieces, E, fold_left_app; cbn [fold_left]; rewrite step_name by (now apply dots_real); now rewrite EL). rewrite EQ in *.
  now destruct (h (l ++ [x])) as [[]|].
Qed.
Lemma create_dirs_ready cwd f p f1 : create_dir_all f cwd p = (f1, None) -> ready cwd f1 (MkDirs p).
Proof.
  intros H h HS. unfold create_dir_all in *. destruct p as [|y p]; [reflexivity|]. set (q := y :: p) in *. destruct (has_nul q); [easy|]. cbn zeta in *. apply make_dirs_dir in H.
  apply make_dirs_there. unfold is_dir in *. destruct (enter f1 (start cwd q) (pieces q)) as [l|] eqn:E; [|easy]. now rewrite (enter_mono f1 h HS _ _ _ E).
Qed.
Lemma run_ready cwd f ops f' ok : run cwd f ops f' ok -> ok = true -> forall o, In o ops -> ready cwd f' o.
Proof.
  induction 1 as [f|f p f1 ops f2 ok H1 H2 IH|f p f1 e ops H|f p k n f1 ops H|f p ops|f p c f1 ops f2 ok H1 H2 IH|f p c e ops H|f p c k f1 ops H|f p c ops]; intros HK o HO; try easy.
  - destruct HO as [<-|HO]; [|now apply IH]. apply (ready_mono cwd f1); [now apply run_changed, changed_dir in H2|]. now apply (create_dirs_ready cwd f).
  - destruct HO as [<-|HO]; [|now apply IH]. apply (ready_mono cwd f); [|now apply create_file_ready with (f1 := f1)]. apply run_changed, changed_dir in H2. intros l E. apply H2.
    apply create_file_inv in H1 as (A & -> & _). rewrite put_other; [easy|]. congruence.
Qed.
Lemma perform_ready cwd f ops : (forall o, In o ops -> ready cwd f o) -> (forall l, In l (map fst (writes cwd ops)) -> exists c, f l = Some (EFile c)) ->
  forall h, (forall l, match f l with Some EDir => h l = Some EDir | Some (EFile _) => exists c, h l = Some (EFile c) | None => True end) ->
  exists f', perform cwd h ops = (f', None) /\ forall l, ~ In l (map fst (writes cwd ops)) -> f' l = h l.
Proof.
  induction ops as [|o ops IH]; intros HR HW h HH; [now exists h|].
  assert (dirs_stay f h) as HS by (intros l E; specialize (HH l); now rewrite E in HH). pose proof (HR o (or_introl eq_refl) h HS) as RO.
  destruct o as [p|p c]; cbn [perform].
  - rewrite RO. apply IH; [intros; apply HR; now right|easy|easy].
  - cbn [writes flat_map List.app] in *. fold (writes cwd ops) in *. cbn [map fst] in *. destruct (HW (locate cwd p) (or_introl eq_refl)) as (c0 & E0).
    rewrite RO by (specialize (HH (locate cwd p)); rewrite E0 in HH; destruct HH; congruence).
    destruct (IH (fun o O => HR o (or_intror O)) (fun l L => HW l (or_intror L)) (put h (locate cwd p) (EFile c))) as (f' & E & HX).
    + intro l. specialize (HH l). destruct (loc_eq_dec l (locate cwd p)) as [->|NE]; [rewrite E0, put_same; eauto|]. now rewrite put_other.
    + exists f'. split; [easy|]. intros l L. rewrite HX by (intro I; apply L; now right). apply put_other. intros ->. apply L. now left.
Qed.
Lemma last_write (w : list (loc * list N)) l : In l (map fst w) -> exists w1 c w2, w = w1 ++ (l, c) :: w2 /\ ~ In l (map fst w2).
Proof.
  induction w as [|[a c] w IH]; intro H; [easy|]. destruct (in_dec loc_eq_dec l (map fst w)) as [I|I].
  - destruct (IH I) as (w1 & c' & w2 & -> & HN). now exists ((a, c) :: w1), c', w2.
  - destruct H as [E|H]; [|easy]. cbn [fst] in E. subst a. now exists [], c, w.
Qed.
Lemma run_again cwd f ops f' : run cwd f ops f' true -> exists f'', perform cwd f' ops = (f'', None) /\ forall l, f'' l = f' l.
Proof.
  intro H. destruct (perform_ready cwd f' ops) with (h := f') as (f'' & E & HX).
  - now apply (run_ready cwd f ops f' true).
  - intros l L. destruct (last_write _ _ L) as (w1 & c & w2 & EW & HN). exists c. now apply (run_content cwd f ops f' true H eq_refl w1 l c w2).
  - intro l. destruct (f' l) as [[|c]|]; [easy|eauto|easy].
  - exists f''. split; [easy|]. intro l. destruct (in_dec loc_eq_dec l (map fst (writes cwd ops))) as [I|I]; [|now apply HX].
    destruct (last_write _ _ I) as (w1 & c & w2 & EW & HN). rewrite (run_content cwd f ops f' true H eq_refl w1 l c w2 EW HN).
    apply perform_run in E. now apply (run_content cwd f' ops f'' true E eq_refl w1 l c w2).
Qed.
(** Parents of what there is are directories, and so is the current directory. *)
Definition sound (cwd : loc) (f : files) : Prop := f [] = Some EDir /\ f cwd = Some EDir /\ forall l x e, f (l ++ [x]) = Some e -> f l = Some EDir.
Lemma enter_sound cwd f : sound cwd f -> forall cs l l', f l = Some EDir -> enter f l cs = inl l' -> f l' = Some EDir.
Proof.
  intros (H0 & _ & HU). induction cs as [|c cs IH]; intros l l' HL HE; cbn [enter] in HE; [now injection HE as <-|]. destruct (bytes_eqb c dot); [now apply (IH l)|].
  destruct (bytes_eqb c dotdot).
  - apply (IH (removelast l)); [|easy]. destruct l as [|x l] using rev_ind; [easy|]. rewrite removelast_last. now apply HU in HL.
  - destruct (f (l ++ [c])) as [[]|] eqn:E; [|easy|easy]. now apply (IH (l ++ [c])).
Qed.
Lemma fits_changed cwd out cont o1 o2 b all f f1 : sound cwd f -> has_nul out = false -> pieces out = o1 ++ o2 -> Forall real o2 -> Forall good all ->
  enter f (start cwd out) o1 = inl b -> fits b o2 f all -> changed cwd (ops_of cont out all) f f1 -> fits b o2 f1 all.
Proof.
  intros HS HN HP HR HG HE HF HC. rewrite Forall_forall in HG. pose proof (pieces_all out) as PA. rewrite HP in PA. apply Forall_app in PA as [PA _].
  assert (forall l, written cwd (ops_of cont out all) l -> exists y, In y all /\ l = b ++ below o2 (fst (fst y)) ++ [m3u (snd y)]) as HW.
  { intros l (p & c & I & ->). apply in_flat_map in I as (y & IY & I). destruct I as [I|[I|[]]]; [easy|]. injection I as <- _. exists y. split; [easy|]. destruct (HG y IY) as (GA & GN).
    destruct (path_of_facts cwd _ out HN GA) as (A & B & C & D). destruct (file_facts cwd _ (snd y) A GN) as (A2 & B2 & C2 & D2). rewrite locate_pieces, B2, C2, B, C, HP, <- !app_assoc, !fold_left_app.
    rewrite <- (enter_locate f _ _ _ PA HE). rewrite (step_names o2 b HR), (step_names _ _ D). cbn [fold_left]. rewrite step_name by apply m3u_real. unfold below. now rewrite <- !app_assoc. }
  assert (forall l, f l = None -> made cwd (ops_of cont out all) l -> exists y r, In y all /\ begins r (below o2 (fst (fst y))) /\ l = b ++ r) as HM.
  { intros l EN (p & k & I & ->). apply in_flat_map in I as (y & IY & I). destruct I as [I|[I|[]]]; [|easy]. injection I as <-. destruct (HG y IY) as (GA & GN).
    destruct (path_of_facts cwd _ out HN GA) as (A & B & C & D). rewrite B, C, HP, <- app_assoc in *. fold (below o2 (fst (fst y))) in *. rewrite firstn_app, fold_left_app in *.
    assert (Forall real (below o2 (fst (fst y)))) as HNS by now apply Forall_app. exists y.
    destruct (Nat.le_gt_cases k (List.length o1)) as [L|L].
    - exfalso. replace (k - List.length o1)%nat with 0%nat in EN by lia. cbn [firstn fold_left] in EN. rewrite <- (firstn_skipn k o1), enter_app in HE.
      destruct (enter f (start cwd out) (firstn k o1)) as [l'|] eqn:E; [|easy]. rewrite <- (enter_locate _ _ _ _ (nonempty_firstn k o1 PA) E) in EN.
      apply (enter_sound cwd f HS) in E; [congruence|]. unfold start. destruct (is_abs out); apply HS.
    - rewrite (firstn_all2 o1) in * by lia. rewrite <- (enter_locate f _ _ _ PA HE) in *. set (r := firstn (k - List.length o1) (below o2 (fst (fst y)))) in *.
      assert (Forall real r) as HRr by (unfold r; rewrite <- (firstn_skipn (k - List.length o1) (below o2 (fst (fst y)))) in HNS; now apply Forall_app in HNS as [HNS _]).
      rewrite (step_names r b HRr) in *. exists r. split; [easy|]. split; [|easy]. split.
      + intros ->. rewrite app_nil_r in EN. apply (enter_sound cwd f HS) in HE; [congruence|]. unfold start. destruct (is_abs out); apply HS.
      + exists (skipn (k - List.length o1) (below o2 (fst (fst y)))). unfold r. now rewrite firstn_skipn. }
  intros x IX. destruct (HF x IX) as (F1 & F2 & F3). split; [|split; [|easy]].
  - intros r Hr c E. destruct (HC (b ++ r)) as [E2|[(_ & E2 & _)|(_ & _ & W)]]; [rewrite E2 in E; now apply (F1 r Hr c)|congruence|]. apply HW in W as (y & IY & EL). apply app_inv_head in EL. subst r.
    destruct (HF y IY) as (_ & _ & G3). now apply (G3 x IX).
  - intro E. destruct (HC (b ++ below o2 (fst (fst x)) ++ [m3u (snd x)])) as [E2|[(E1 & _ & M)|(_ & (c & E2) & _)]]; [congruence| |congruence].
    destruct (HM _ E1 M) as (y & r & IY & Hr & EL). apply app_inv_head in EL. subst r. now apply (F3 y IY).
Qed.
