(** * Facts about the file system *)
From Coq Require Import NArith ZArith List Bool Lia String.
From Coq Require Import ZifyBool ZifyNat ZifyN.
From Verif Require Import Base BaseFacts Utf Str Device DeviceTree Cli CliFacts Fs.
Import ListNotations.
Local Close Scope string_scope.
Open Scope N_scope.

(** ** Paths *)
Lemma step_pieces cs l : fold_left step (filter (fun c => negb (bytes_eqb c [])) cs) l = fold_left step cs l.
Proof.
  revert l. induction cs as [|c cs IH]; intro l; [easy|]. cbn [filter fold_left]. destruct (bytes_eqb c []) eqn:E; cbn [negb].
  - apply bytes_eqb_eq in E as ->. rewrite step_empty. apply IH.
  - cbn [fold_left]. apply IH.
Qed.
Lemma locate_pieces cwd p : locate cwd p = fold_left step (pieces p) (start cwd p).
Proof. unfold locate, pieces, start. now rewrite step_pieces. Qed.
Definition real (c : path) : Prop := c <> [] /\ c <> dot /\ c <> dotdot.
Lemma step_name l c : real c -> step l c = l ++ [c].
Proof.
  intros (H1 & H2 & H3). unfold step. rewrite (proj2 (bytes_eqb_false c []) H1), (proj2 (bytes_eqb_false c [46]) H2), (proj2 (bytes_eqb_false c [46; 46]) H3). reflexivity.
Qed.
Lemma step_names cs l : Forall real cs -> fold_left step cs l = l ++ cs.
Proof.
  intro H. revert l. induction H as [|c cs HC _ IH]; intro l; [now rewrite app_nil_r|]. cbn [fold_left]. rewrite step_name, IH by easy. now rewrite <- app_assoc.
Qed.
Lemma pieces_nonempty p c : In c (pieces p) -> c <> [].
Proof. intro H. apply filter_In in H as [_ H]. now apply negb_true_iff, bytes_eqb_false in H. Qed.
Lemma piece_cases c : c <> [] -> c = dot \/ c = dotdot \/ real c.
Proof.
  intro H. destruct (list_eq_dec N.eq_dec c dot) as [->|H1]; [now left|]. destruct (list_eq_dec N.eq_dec c dotdot) as [->|H2]; [right; now left|]. right. right. easy.
Qed.
Lemma dots_real c : bytes_eqb c dot = false -> bytes_eqb c dotdot = false -> c <> [] -> real c.
Proof. intros H1 H2 H3. split; [easy|]. split; now apply bytes_eqb_false. Qed.
Lemma real_dot c : real c -> bytes_eqb c dot = false.
Proof. intros (_ & H & _). now apply bytes_eqb_false. Qed.
Lemma real_dotdot c : real c -> bytes_eqb c dotdot = false.
Proof. intros (_ & _ & H). now apply bytes_eqb_false. Qed.

(** ** [put] *)
Lemma put_same f l e : put f l e l = Some e.
Proof. unfold put. now destruct (loc_eq_dec l l). Qed.
Lemma put_other f l e x : x <> l -> put f l e x = f x.
Proof. unfold put. now destruct (loc_eq_dec x l). Qed.

(** ** Entering *)
Definition nonempty_all (cs : list path) : Prop := Forall (fun c => c <> []) cs.
Lemma pieces_all p : nonempty_all (pieces p).
Proof. apply Forall_forall. intro c. apply pieces_nonempty. Qed.
Lemma enter_locate f : forall cs l l', nonempty_all cs -> enter f l cs = inl l' -> l' = fold_left step cs l.
Proof.
  induction cs as [|c cs IH]; intros l l' HN HE; cbn [enter fold_left] in *; [now injection HE|]. apply Forall_cons_iff in HN as [HC HN].
  destruct (piece_cases c HC) as [->|[->|HR]].
  - cbn in HE. apply IH in HE; [|easy]. subst l'. f_equal.
  - cbn in HE. apply IH in HE; [|easy]. subst l'. f_equal.
  - rewrite real_dot, real_dotdot in HE by easy. rewrite step_name by easy. destruct (f (l ++ [c])) as [[]|]; [now apply IH in HE|easy|easy].
Qed.
Lemma enter_app f : forall cs1 cs2 l, enter f l (cs1 ++ cs2) = match enter f l cs1 with inl l' => enter f l' cs2 | inr e => inr e end.
Proof.
  induction cs1 as [|c cs1 IH]; intros cs2 l; [easy|]. cbn [List.app enter]. destruct (bytes_eqb c dot); [apply IH|]. destruct (bytes_eqb c dotdot); [apply IH|].
  destruct (f (l ++ [c])) as [[]|]; [apply IH|easy|easy].
Qed.
(** Directories stay: what can be entered can still be entered. *)
Definition dirs_stay (f f' : files) : Prop := forall l, f l = Some EDir -> f' l = Some EDir.
Lemma enter_mono f f' : dirs_stay f f' -> forall cs l l', enter f l cs = inl l' -> enter f' l cs = inl l'.
Proof.
  intro HD. induction cs as [|c cs IH]; intros l l' HE; cbn [enter] in *; [easy|]. destruct (bytes_eqb c dot); [now apply IH|]. destruct (bytes_eqb c dotdot); [now apply IH|].
  destruct (f (l ++ [c])) as [[]|] eqn:E; [|easy|easy]. rewrite (HD _ E). now apply IH.
Qed.

(** ** Directories that are made *)
Lemma rev_cases {A} (l : list A) : match rev l with [] => l = [] | c :: r => l = rev r ++ [c] end.
Proof. destruct (rev l) as [|c r] eqn:E; [|change (rev r ++ [c]) with (rev (c :: r))]; rewrite <- (rev_involutive l), E; reflexivity. Qed.
Lemma mkdir_snoc f s cs c : mkdir f s (cs ++ [c]) =
  match enter f s cs with
  | inr e => inr e
  | inl l => if bytes_eqb c dot || bytes_eqb c dotdot then inr Exists
             else match f (l ++ [c]) with None => inl (put f (l ++ [c]) EDir) | Some _ => inr Exists end
  end.
Proof. unfold mkdir. rewrite rev_app_distr. cbn [rev List.app]. now rewrite rev_involutive. Qed.
(** One new directory at the location of the path. *)
Lemma mkdir_inv f s cs f1 : nonempty_all cs -> mkdir f s cs = inl f1 ->
  let l := fold_left step cs s in f l = None /\ f1 = put f l EDir.
Proof.
  intros HN HM. destruct (rev cs) as [|c r] eqn:ER; [unfold mkdir in HM; now rewrite ER in HM|]. pose proof (rev_cases cs) as E. rewrite ER in E. subst cs.
  rewrite mkdir_snoc in HM. apply Forall_app in HN as [HN HC]. apply Forall_cons_iff in HC as [HC _]. rewrite fold_left_app. cbn [fold_left].
  destruct (enter f s (rev r)) as [l|] eqn:EE; [|easy]. apply enter_locate in EE; [|easy]. subst l.
  destruct (bytes_eqb c dot) eqn:E1; [easy|]. destruct (bytes_eqb c dotdot) eqn:E2; [easy|]. cbn [orb] in HM. rewrite step_name by now apply dots_real.
  destruct (f (_ ++ [c])) eqn:EF; [easy|]. now injection HM as <-.
Qed.
Lemma drop_dots_suffix r : exists k, drop_dots r = skipn k r.
Proof. induction r as [|c r (k & IH)]; [now exists 0%nat|]. cbn [drop_dots]. destruct (bytes_eqb c dot); [now exists (S k)|now exists 0%nat]. Qed.
Lemma skipn_skipn {A} (i j : nat) : forall l : list A, skipn i (skipn j l) = skipn (j + i) l.
Proof. induction j as [|j IH]; intro l; [easy|]. destruct l; [now rewrite !skipn_nil|]. cbn. apply IH. Qed.
Lemma parent_prefix cs : exists k, parent cs = firstn k cs /\ (cs <> [] -> (k < List.length cs)%nat).
Proof.
  unfold parent. destruct (drop_dots_suffix (rev cs)) as (i & ->). destruct (drop_dots_suffix (tl (skipn i (rev cs)))) as (j & ->).
  assert (forall l : list path, tl l = skipn 1 l) as HT by now intros []. rewrite HT, !skipn_skipn. set (m := (i + (1 + j))%nat). exists (List.length cs - m)%nat.
  split; [|intro H; assert (List.length cs <> 0)%nat by (now destruct cs); lia]. rewrite skipn_rev, rev_involutive. reflexivity.
Qed.
(** What [make_dirs] changes: new directories at the locations of beginnings of the path. *)
Definition dirs_made (s : loc) (cs : list path) (f f' : files) : Prop :=
  forall l, f' l = f l \/ (f l = None /\ f' l = Some EDir /\ exists k, l = fold_left step (firstn k cs) s).
Lemma dirs_made_refl s cs f : dirs_made s cs f f.
Proof. intro l. now left. Qed.
Lemma dirs_made_trans s cs f f1 f2 : dirs_made s cs f f1 -> dirs_made s cs f1 f2 -> dirs_made s cs f f2.
Proof.
  intros H1 H2 l. destruct (H2 l) as [E|(E1 & E2 & k & E3)].
  - rewrite E. apply H1.
  - destruct (H1 l) as [E|(F1 & F2 & _)]; [|congruence]. right. rewrite <- E. eauto.
Qed.
Lemma dirs_made_prefix s cs k f f' : dirs_made s (firstn k cs) f f' -> dirs_made s cs f f'.
Proof. intros H l. destruct (H l) as [E|(E1 & E2 & j & E3)]; [now left|]. right. split; [easy|]. split; [easy|]. exists (Nat.min j k). now rewrite <- firstn_firstn. Qed.
Lemma mkdir_made f s cs f1 : nonempty_all cs -> mkdir f s cs = inl f1 -> dirs_made s cs f f1.
Proof.
  intros HN HM l. apply mkdir_inv in HM as [H1 ->]; [|easy]. destruct (loc_eq_dec l (fold_left step cs s)) as [->|NE].
  - right. split; [easy|]. split; [apply put_same|]. exists (List.length cs). now rewrite firstn_all.
  - left. now apply put_other.
Qed.
Lemma nonempty_firstn k cs : nonempty_all cs -> nonempty_all (firstn k cs).
Proof. intro H. rewrite <- (firstn_skipn k cs) in H. now apply Forall_app in H as [H _]. Qed.
Lemma make_dirs_made : forall n f s cs, nonempty_all cs -> dirs_made s cs f (fst (make_dirs n f s cs)).
Proof.
  induction n as [|n IH]; intros f s cs HN; (destruct cs as [|c cs]; [apply dirs_made_refl|]); set (ds := c :: cs) in *; cbn [make_dirs]; fold ds;
    (destruct (mkdir f s ds) as [f1|e] eqn:EM; [now apply mkdir_made|]); destruct e; try apply dirs_made_refl.
  destruct (parent_prefix ds) as (k & EP & _). rewrite EP. specialize (IH f s (firstn k ds) (nonempty_firstn k ds HN)).
  destruct (make_dirs n f s (firstn k ds)) as [f1 [e|]]; cbn [fst] in *; apply dirs_made_prefix in IH; [easy|].
  destruct (mkdir f1 s ds) as [f2|e] eqn:EM2; cbn [fst]; [|easy]. apply (dirs_made_trans _ _ _ f1); [easy|now apply mkdir_made].
Qed.
Lemma make_dirs_dir : forall n f s cs f1, make_dirs n f s cs = (f1, None) -> is_dir f1 s cs = true.
Proof.
  assert (forall f s cs f1, mkdir f s cs = inl f1 -> is_dir f1 s cs = true) as HM.
  { intros f s cs f1 HM. pose proof (rev_cases cs) as E. destruct (rev cs) as [|c r] eqn:ER; [unfold mkdir in HM; now rewrite ER in HM|]. rewrite E in HM |- *.
    rewrite mkdir_snoc in HM. destruct (enter f s (rev r)) as [l|] eqn:EE; [|easy]. destruct (bytes_eqb c dot) eqn:E1; [easy|]. destruct (bytes_eqb c dotdot) eqn:E2; [easy|].
    cbn [orb] in HM. destruct (f (l ++ [c])) eqn:EF; [easy|]. injection HM as <-. unfold is_dir. rewrite enter_app.
    rewrite (enter_mono f (put f (l ++ [c]) EDir)) with (l' := l); [|intros x HX; destruct (loc_eq_dec x (l ++ [c])) as [->|NE]; [apply put_same|now rewrite put_other]|easy].
    cbn [enter]. now rewrite E1, E2, put_same. }
  induction n as [|n IH]; intros f s cs f1 H; (destruct cs as [|c cs]; [now injection H as <-|]); set (ds := c :: cs) in *; cbn [make_dirs] in H; fold ds in H;
    (destruct (mkdir f s ds) as [f0|e] eqn:EM; [injection H as <-; now apply (HM f s ds)|]).
  - destruct e; try easy; destruct (is_dir f s ds) eqn:ED; try easy; now injection H as <-.
  - destruct e; try (destruct (is_dir f s ds) eqn:ED; try easy; now injection H as <-).
    destruct (make_dirs n f s (parent ds)) as [f0 [e|]]; [easy|]. destruct (mkdir f0 s ds) as [f2|e] eqn:EM2; [injection H as <-; now apply (HM f0 s ds)|].
    destruct (is_dir f0 s ds) eqn:ED; [|easy]. now injection H as <-.
Qed.
(** The number of pieces suffices as a bound. *)
Lemma fs_fuel : forall n m f s cs, (List.length cs <= n)%nat -> (List.length cs <= m)%nat -> make_dirs n f s cs = make_dirs m f s cs.
Proof.
  induction n as [|n IH]; intros m f s cs H1 H2; [destruct cs; [now destruct m|cbn in H1; lia]|].
  destruct cs as [|c cs]; [now destruct m|]. set (ds := c :: cs) in *. destruct m as [|m]; [cbn in H2; lia|]. cbn [make_dirs]. fold ds.
  destruct (mkdir f s ds) as [f0|[]]; try easy. destruct (parent_prefix ds) as (k & EP & EL). specialize (EL ltac:(easy)).
  rewrite (IH m f s (parent ds)); [easy| |]; rewrite EP, firstn_length; lia.
Qed.
Lemma create_dirs_made f cwd p f1 r : create_dir_all f cwd p = (f1, r) -> dirs_made (start cwd p) (pieces p) f f1.
Proof.
  unfold create_dir_all. destruct p as [|x p]; [intros [= <- _]; apply dirs_made_refl|]. set (q := x :: p). destruct (has_nul q); [intros [= <- _]; apply dirs_made_refl|].
  cbn zeta. intro H. pose proof (make_dirs_made (List.length (pieces q)) f (start cwd q) (pieces q) (pieces_all q)) as HM. now rewrite H in HM.
Qed.

(** ** Files that are created *)
Lemma create_file_inv f cwd p c f1 : create_file f cwd p c = inl f1 ->
  let l := locate cwd p in f l <> Some EDir /\ f1 = put f l (EFile c) /\ exists d x, pieces p = d ++ [x] /\ real x /\ enter f (start cwd p) d <> inr NotFound /\ l = fold_left step d (start cwd p) ++ [x].
Proof.
  unfold create_file. destruct (has_nul p); [easy|]. pose proof (rev_cases (pieces p)) as E. destruct (rev (pieces p)) as [|x r]; [now destruct p|].
  destruct (enter f (start cwd p) (rev r)) as [l|] eqn:EE; [|easy]. pose proof (pieces_all p) as HN. rewrite E in HN. apply Forall_app in HN as [HN HX]. apply Forall_cons_iff in HX as [HX _].
  pose proof (enter_locate _ _ _ _ HN EE) as EL. subst l. destruct (bytes_eqb x dot) eqn:E1; [easy|]. destruct (bytes_eqb x dotdot) eqn:E2; [easy|]. destruct (last p 0 =? 47); [easy|]. cbn [orb].
  intro H. cbn zeta. rewrite locate_pieces, E, fold_left_app. cbn [fold_left]. rewrite step_name by now apply dots_real.
  destruct (f (_ ++ [x])) as [[|y]|] eqn:EF; [easy| |]; injection H as <-; (split; [congruence|]); (split; [reflexivity|]);
    exists (rev r), x; (split; [easy|]); (split; [now apply dots_real|]); (split; [congruence|reflexivity]).
Qed.

(** ** Runs *)
Definition made (cwd : loc) (ops : list fsop) (l : loc) : Prop :=
  exists p k, In (MkDirs p) ops /\ l = fold_left step (firstn k (pieces p)) (start cwd p).
Definition written (cwd : loc) (ops : list fsop) (l : loc) : Prop := exists p c, In (WriteFile p c) ops /\ l = locate cwd p.
Definition changed (cwd : loc) (ops : list fsop) (f f' : files) : Prop := forall l,
  f' l = f l \/ (f l = None /\ f' l = Some EDir /\ made cwd ops l) \/ (f l <> Some EDir /\ (exists c, f' l = Some (EFile c)) /\ written cwd ops l).
Lemma changed_refl cwd ops f : changed cwd ops f f.
Proof. intro l. now left. Qed.
Lemma changed_trans cwd ops f f1 f2 : changed cwd ops f f1 -> changed cwd ops f1 f2 -> changed cwd ops f f2.
Proof.
  intros H1 H2 l. destruct (H2 l) as [E|[(A & B & C)|(A & B & C)]].
  - rewrite E. apply H1.
  - destruct (H1 l) as [E|[(A' & B' & C')|(A' & (c & B') & C')]]; [|congruence|congruence]. right. left. rewrite <- E. easy.
  - destruct (H1 l) as [E|[(A' & B' & C')|(A' & B' & C')]]; [|congruence|]; right; right; [rewrite <- E|]; easy.
Qed.
Lemma changed_more cwd ops ops' f f' : incl ops ops' -> changed cwd ops f f' -> changed cwd ops' f f'.
Proof.
  intros HI H l. destruct (H l) as [E|[(A & B & p & k & C & D)|(A & B & p & c & C & D)]]; [now left| |]; right.
  - left. split; [easy|]. split; [easy|]. exists p, k. split; [now apply HI|easy].
  - right. split; [easy|]. split; [easy|]. exists p, c. split; [now apply HI|easy].
Qed.
Lemma dirs_changed cwd p ops f f1 : dirs_made (start cwd p) (pieces p) f f1 -> changed cwd (MkDirs p :: ops) f f1.
Proof. intros H l. destruct (H l) as [E|(A & B & k & C)]; [now left|]. right. left. split; [easy|]. split; [easy|]. exists p, k. split; [now left|easy]. Qed.
Lemma file_changed cwd p c c' ops f f1 : create_file f cwd p c' = inl f1 -> changed cwd (WriteFile p c :: ops) f f1.
Proof.
  intros H l. apply create_file_inv in H as (A & -> & _). destruct (loc_eq_dec l (locate cwd p)) as [->|NE]; [|left; now apply put_other].
  right. right. split; [easy|]. split; [exists c'; apply put_same|]. exists p, c. split; [now left|easy].
Qed.
Lemma run_changed cwd f ops f' ok : run cwd f ops f' ok -> changed cwd ops f f'.
Proof.
  induction 1 as [f|f p f1 ops f2 ok H1 H2 IH|f p f1 e ops H|f p k n f1 ops H|f p ops|f p c f1 ops f2 ok H1 H2 IH|f p c e ops H|f p c k f1 ops H|f p c ops]; try apply changed_refl.
  - apply (changed_trans _ _ _ f1); [apply dirs_changed; now apply create_dirs_made in H1|]. apply (changed_more _ ops); [now apply incl_tl|easy].
  - apply dirs_changed. now apply create_dirs_made in H.
  - apply dirs_changed. apply (dirs_made_prefix _ _ k). rewrite <- H. apply make_dirs_made, nonempty_firstn, pieces_all.
  - apply (changed_trans _ _ _ f1); [now apply file_changed with (c' := c)|]. apply (changed_more _ ops); [now apply incl_tl|easy].
  - now apply file_changed with (c := c) (ops := ops) in H.
Qed.
Lemma perform_run cwd : forall ops f f' r, perform cwd f ops = (f', r) -> run cwd f ops f' (match r with None => true | Some _ => false end).
Proof.
  induction ops as [|[p|p c] ops IH]; intros f f' r H; cbn [perform] in H.
  - injection H as <- <-. constructor.
  - destruct (create_dir_all f cwd p) as [f1 [e|]] eqn:E; [injection H as <- <-; now apply (run_dirs_err cwd f p f1 e)|]. apply (run_dirs cwd f p f1); [easy|now apply IH].
  - destruct (create_file f cwd p c) as [f1|e] eqn:E; [apply (run_file cwd f p c f1); [easy|now apply IH]|]. injection H as <- <-. now apply (run_file_err cwd f p c e).
Qed.
(** The content of the last file that is written at a location stays. *)
Lemma run_content cwd f ops f' ok : run cwd f ops f' ok -> ok = true -> forall w1 l c w2, writes cwd ops = w1 ++ (l, c) :: w2 -> ~ In l (map fst w2) -> f' l = Some (EFile c).
Proof.
  induction 1 as [f|f p f1 ops f2 ok H1 H2 IH|f p f1 e ops H|f p k n f1 ops H|f p ops|f p c f1 ops f2 ok H1 H2 IH|f p c e ops H|f p c k f1 ops H|f p c ops]; intros HK w1 l c' w2 HW HI; try easy.
  - now destruct w1.
  - cbn [writes flat_map List.app] in HW. now apply (IH HK w1 l c' w2).
  - cbn [writes flat_map List.app] in HW. fold (writes cwd ops) in HW. destruct w1 as [|x w1].
    + injection HW as <- <- <-. pose proof (run_changed _ _ _ _ _ H2 (locate cwd p)) as HC. apply create_file_inv in H1 as (_ & -> & _). rewrite put_same in HC.
      destruct HC as [E|[(A & _)|(_ & _ & q & d & C & D)]]; [easy|easy|]. exfalso. apply HI. apply in_map_iff. exists (locate cwd q, d). split; [easy|].
      unfold writes. apply in_flat_map. exists (WriteFile q d). split; [easy|now left].
    + injection HW as <- HW. now apply (IH HK w1 l c' w2).
Qed.

(** ** Names of exported files *)
Definition suffix : list N := bytes_of ".m3u".
Definition is_m3u (l : loc) : Prop := exists d x, l = d ++ [x ++ suffix].
Lemma split_suffix s : ~ In 47 s -> s <> [] -> forall q, exists d x, split (q ++ s) = d ++ [x ++ s].
Proof.
  intros H1 H2. induction q as [|c q (d & x & IH)].
  - exists [], []. cbn [List.app]. now apply split_name.
  - cbn [List.app split]. rewrite IH. destruct (c =? 47).
    + exists ([] :: d), x. easy.
    + destruct d as [|y d]; cbn [List.app].
      * exists [], (c :: x). easy.
      * exists ((c :: y) :: d), x. easy.
Qed.
Lemma m3u_suffix name : m3u name = utf8_enc name ++ suffix.
Proof. unfold m3u, utf8_enc. rewrite flat_map_app. f_equal. Qed.
Lemma join_suffix p name : exists q, join p (m3u name) = q ++ suffix.
Proof.
  rewrite m3u_suffix. unfold join. destruct (is_abs _); [now exists (utf8_enc name)|]. exists (p ++ (if needs_sep p then [47] else []) ++ utf8_enc name). now rewrite !app_assoc.
Qed.
Lemma suffix_real x : real (x ++ suffix).
Proof.
  assert (4 <= List.length (x ++ suffix))%nat as L by (rewrite app_length; cbn; lia). repeat split; intro E; rewrite E in L; cbn in L; lia.
Qed.
Lemma locate_suffix cwd q : is_m3u (locate cwd (q ++ suffix)).
Proof.
  unfold locate. destruct (split_suffix suffix) with (q := q) as (d & x & ->); [cbn; intuition discriminate|easy|]. rewrite fold_left_app. cbn [fold_left].
  rewrite step_name by apply suffix_real. now exists (fold_left step d (if is_abs (q ++ suffix) then [] else cwd)), x.
Qed.
Lemma walk_files cont t : forall p q c, In (WriteFile q c) (walk cont t p) -> exists d name, q = join d (m3u name).
Proof.
  induction t as [i s ch IH|i s] using pnode_ind2; intros p q c H; cbn [walk] in H.
  - apply in_flat_map in H as (x & I & H). rewrite Forall_forall in IH. now apply (IH x I) in H.
  - destruct H as [H|[H|[]]]; [easy|]. injection H as <- _. eauto.
Qed.
Lemma export_files cwd cont ts out l : written cwd (flat_map (fun t => walk cont t out) ts) l -> is_m3u l.
Proof.
  intros (p & c & I & ->). apply in_flat_map in I as (t & _ & I). apply walk_files in I as (d & name & ->). destruct (join_suffix d name) as (q & ->). apply locate_suffix.
Qed.

(** ** Directories of exported trees *)
Lemma pieces_join p q : is_abs q = false -> pieces (join p q) = pieces p ++ pieces q.
Proof.
  intro H. unfold join. rewrite H. unfold needs_sep. destruct p as [|c p'] eqn:EP; [reflexivity|]. rewrite <- EP. assert (p <> []) as NE by (subst; easy). clear EP c p'.
  unfold pieces. destruct (N.eqb_spec (last p 0) 47) as [E|E]; cbn [negb List.app].
  - destruct (exists_last NE) as (p' & x & ->). rewrite last_last in E. subst x. rewrite <- app_assoc. cbn [List.app]. rewrite !split_app, !filter_app. cbn [split filter]. cbn. now rewrite app_nil_r.
  - now rewrite split_app, filter_app.
Qed.
Lemma start_join cwd p q : is_abs q = false -> start cwd (join p q) = start cwd p.
Proof.
  intro H. unfold start, join. rewrite H. destruct p as [|c p]; [cbn [needs_sep List.app]; now rewrite H|]. now rewrite is_abs_app.
Qed.
Lemma pieces_name s : ~ In 47 s -> pieces s = if bytes_eqb s [] then [] else [s].
Proof. intro H. unfold pieces. rewrite split_name by easy. cbn [filter]. now destruct (bytes_eqb s []). Qed.
Lemma utf8_nil s : utf8_enc s = [] -> s = [].
Proof. destruct s as [|c s]; [easy|]. unfold utf8_enc. cbn [flat_map]. unfold utf8_enc1. destruct (c <? 128), (c <? 2048), (c <? 65536); easy. Qed.
(** The pieces of the directories: those of the output directory, then names that are not "..". *)
Lemma walk_dirs cont t : safe t -> forall p q, In (MkDirs q) (walk cont t p) -> forall cwd,
  start cwd q = start cwd p /\ exists qs, pieces q = pieces p ++ qs /\ Forall (fun c => c <> [] /\ c <> dotdot) qs.
Proof.
  induction t as [i s ch IH|i s] using pnode_ind2; intros HS p q H cwd; cbn [walk] in H.
  - destruct HS as (S1 & S2 & SC). apply safe_all in SC. apply in_flat_map in H as (x & I & H). rewrite Forall_forall in IH, SC.
    destruct (IH x I (SC x I) (join p (utf8_enc s)) q H cwd) as (E1 & qs & E2 & HQ). assert (~ In 47 (utf8_enc s)) as NS by now rewrite utf8_slash.
    rewrite start_join in E1 by now apply not_abs. rewrite pieces_join in E2 by now apply not_abs. split; [easy|]. exists (pieces (utf8_enc s) ++ qs). split; [now rewrite app_assoc|].
    apply Forall_app. split; [|easy]. rewrite pieces_name by easy. destruct (bytes_eqb (utf8_enc s) []) eqn:E; [constructor|]. constructor; [|constructor]. apply bytes_eqb_false in E. split; [easy|].
    intro X. apply S2. now apply utf8_is in X.
  - destruct H as [H|[H|[]]]; [|easy]. injection H as <-. split; [easy|]. exists []. split; [now rewrite app_nil_r|constructor].
Qed.
Lemma step_down qs : Forall (fun c => c <> [] /\ c <> dotdot) qs -> forall l, exists r, fold_left step qs l = l ++ r.
Proof.
  induction 1 as [|c qs [H1 H2] _ IH]; intro l; [exists []; now rewrite app_nil_r|]. cbn [fold_left]. destruct (piece_cases c H1) as [->|[->|HR]]; [|easy|].
  - change (step l dot) with l. apply IH.
  - destruct (IH (l ++ [c])) as (r & E). exists (c :: r). rewrite (step_name l c HR). etransitivity; [exact E|]. now rewrite <- app_assoc.
Qed.

(** ** What is printed *)
Lemma log_run cwd f ops ps f' ok : run_log cwd f ops ps f' ok -> run cwd f ops f' ok.
Proof.
  induction 1; [apply run_done|eapply run_dirs; eassumption|eapply run_dirs_err; eassumption|eapply run_dirs_fault; eassumption|apply run_dirs_refused|
    eapply run_file; eassumption|eapply run_file_err; eassumption|eapply run_file_fault; eassumption|apply run_file_refused].
Qed.
Lemma run_logged cwd f ops f' ok : run cwd f ops f' ok -> exists ps, run_log cwd f ops ps f' ok.
Proof.
  induction 1 as [f|f p f1 ops f2 ok HC HR [ps IH]|f p f1 e ops HC|f p k n f1 ops HC|f p ops|f p c f1 ops f2 ok HC HR [ps IH]|f p c e ops HC|f p c k f1 ops HC|f p c ops].
  - exists []. apply log_done.
  - exists ps. eapply log_dirs; eassumption.
  - exists []. eapply log_dirs_err; eassumption.
  - exists []. eapply log_dirs_fault; eassumption.
  - exists []. apply log_dirs_refused.
  - exists (p :: ps). eapply log_file; eassumption.
  - exists [p]. eapply log_file_err; eassumption.
  - exists [p]. eapply log_file_fault; eassumption.
  - exists [p]. apply log_file_refused.
Qed.
Definition file_paths (ops : list fsop) : list path := flat_map (fun o => match o with WriteFile p _ => [p] | MkDirs _ => [] end) ops.
Lemma perform_log cwd : forall ops f f', perform cwd f ops = (f', None) -> run_log cwd f ops (file_paths ops) f' true.
Proof.
  induction ops as [|o ops IH]; intros f f'; cbn [perform]; [intros [= <-]; apply log_done|]. destruct o as [p|p c].
  - destruct (create_dir_all f cwd p) as [f1 [e|]] eqn:E; [easy|]. intro H. eapply log_dirs; [exact E|now apply IH].
  - destruct (create_file f cwd p c) as [f1|e] eqn:E; [|easy]. intro H. change (file_paths (WriteFile p c :: ops)) with (p :: file_paths ops). eapply log_file; [exact E|now apply IH].
Qed.
