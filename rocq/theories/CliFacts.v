(** * Facts about the command line program *)
From Coq Require Import NArith ZArith List Bool Lia String Ascii Sorted.
From Coq Require Import ZifyBool ZifyNat ZifyN.
From Verif Require Import Base BaseFacts Utf Str Schema Oa Rows Page PageRw Db RowShape Setting Device DeviceFacts DeviceTree Cli.
Import ListNotations.
Local Close Scope string_scope.
Open Scope N_scope.

(** ** Where a path leads, without symbolic links: the list of directory names from the root.  [cwd] is the current directory. *)
Definition step (loc : list path) (c : path) : list path :=
  if bytes_eqb c [] || bytes_eqb c [46] then loc else if bytes_eqb c [46; 46] then removelast loc else loc ++ [c].
Definition locate (cwd : list path) (p : path) : list path := fold_left step (split p) (if is_abs p then [] else cwd).

Lemma bytes_eqb_eq a b : bytes_eqb a b = true <-> a = b.
Proof. unfold bytes_eqb. destruct (list_eq_dec N.eq_dec a b); easy. Qed.
Lemma bytes_eqb_false a b : bytes_eqb a b = false <-> a <> b.
Proof. unfold bytes_eqb. destruct (list_eq_dec N.eq_dec a b); easy. Qed.
Lemma split_nonempty p : split p <> [].
Proof. destruct p as [|c p]; cbn [split]; [easy|]. destruct (c =? 47); [easy|]. now destruct (split p). Qed.
Lemma split_app p q : split (p ++ 47 :: q) = split p ++ split q.
Proof.
  induction p as [|c p IH]; [reflexivity|]. cbn [app split]. destruct (c =? 47); [now rewrite IH|]. rewrite IH.
  pose proof (split_nonempty p). destruct (split p); easy.
Qed.
Lemma split_name s : ~ In 47 s -> split s = [s].
Proof.
  induction s as [|c s IH]; intro H; [easy|]. cbn [split]. destruct (N.eqb_spec c 47) as [->|_]; [now destruct H; left|].
  rewrite IH; [easy|]. intro; apply H; now right.
Qed.
Lemma step_empty loc : step loc [] = loc. Proof. reflexivity. Qed.
Lemma is_abs_app p q : p <> [] -> is_abs (p ++ q) = is_abs p.
Proof. now destruct p. Qed.
Lemma locate_join cwd p q : is_abs q = false -> locate cwd (join p q) = fold_left step (split q) (locate cwd p).
Proof.
  intro H. unfold join. rewrite H. unfold needs_sep. destruct p as [|c p'] eqn:EP; [unfold locate; cbn [app split]; now rewrite H|]. rewrite <- EP. assert (p <> []) as NE by (subst; easy). clear EP c p'.
  destruct (N.eqb_spec (last p 0) 47) as [E|E]; cbn [negb app].
  - destruct (exists_last NE) as (p' & x & ->). rewrite last_last in E. subst x. rewrite <- app_assoc. cbn [app].
    unfold locate. rewrite !split_app, !fold_left_app. cbn [split fold_left]. rewrite step_empty. f_equal. f_equal. now destruct p'.
  - unfold locate. rewrite split_app, fold_left_app, is_abs_app by easy. reflexivity.
Qed.
Lemma join_abs p q : is_abs q = true -> join p q = q.
Proof. intro H. unfold join. now rewrite H. Qed.
Lemma not_abs s : ~ In 47 s -> is_abs s = false.
Proof. destruct s as [|c s]; [easy|]. intro H. cbn. destruct (N.eq_dec c 47) as [->|E]; [now destruct H; left|]. destruct c as [|c]; [easy|]. repeat (destruct c as [c|c|]; try easy). Qed.

Lemma utf8_slash s : In 47 (utf8_enc s) <-> In 47 s.
Proof.
  unfold utf8_enc. rewrite in_flat_map. split.
  - intros (c & I & H). unfold utf8_enc1 in H. destruct (c <? 128) eqn:E1; [destruct H as [->|[]]; easy|].
    destruct (c <? 2048); [|destruct (c <? 65536)]; cbn [In] in H; exfalso; repeat (destruct H as [H|H]; [lia|]); exact H.
  - intro I. exists 47. split; [easy|]. now left.
Qed.
Lemma utf8_ascii_id s : is_ascii (utf8_enc s) = true -> utf8_enc s = s.
Proof.
  unfold utf8_enc. induction s as [|c s IH]; [easy|]. cbn [flat_map]. unfold is_ascii. rewrite forallb_app, andb_true_iff. intros [H1 H2].
  rewrite (IH H2). unfold utf8_enc1 in *. destruct (c <? 128) eqn:E; [easy|].
  destruct (c <? 2048); [|destruct (c <? 65536)]; cbn [forallb] in H1; exfalso; rewrite andb_true_iff in H1; destruct H1; lia.
Qed.
Lemma utf8_is s t : is_ascii t = true -> utf8_enc s = t -> s = t.
Proof. intros H E. rewrite <- E. symmetry. apply utf8_ascii_id. now rewrite E. Qed.

(** ** Exported files *)

(** The playlists of a tree with the folders above them, from the top. *)
Fixpoint playlists (above : list (list N)) (t : pnode) : list (list (list N) * N * list N) :=
  match t with
  | PFolder _ name ch => flat_map (playlists (above ++ [name])) ch
  | PPlaylist id name => [(above, id, name)]
  end.
Definition counts (name : list N) : bool := negb (bytes_eqb name [] || bytes_eqb name [46]).
(** Where the directory of a playlist should be: below the output directory, a directory for each folder; a folder without name, or with
    name ".", is none. *)
Definition dir_of (base : list path) (above : list (list N)) : list path := base ++ map utf8_enc (filter counts above).
(** The files and directories that are made. *)
Definition writes (cwd : list path) (ops : list fsop) : list (list path * list N) :=
  flat_map (fun o => match o with WriteFile p c => [(locate cwd p, c)] | MkDirs _ => [] end) ops.
Definition mkdirs (cwd : list path) (ops : list fsop) : list (list path) :=
  flat_map (fun o => match o with MkDirs p => [locate cwd p] | WriteFile _ _ => [] end) ops.

(** No name contains a slash and no folder is called "..". *)
Fixpoint safe (t : pnode) : Prop :=
  match t with
  | PFolder _ name ch => ~ In 47 name /\ name <> [46; 46] /\ fold_right (fun c P => safe c /\ P) True ch
  | PPlaylist _ name => ~ In 47 name
  end.
Lemma safe_all ch : fold_right (fun c P => safe c /\ P) True ch <-> Forall safe ch.
Proof. induction ch as [|c ch IH]; cbn [fold_right]; [easy|]. rewrite Forall_cons_iff. tauto. Qed.

Lemma locate_folder cwd p name : ~ In 47 name -> name <> [46; 46] -> locate cwd (join p (utf8_enc name)) = dir_of (locate cwd p) [name].
Proof.
  intros H1 H2. assert (~ In 47 (utf8_enc name)) as H by now rewrite utf8_slash. rewrite locate_join by now apply not_abs. rewrite split_name by easy. cbn [fold_left].
  unfold step, dir_of, counts. cbn [filter].
  destruct (bytes_eqb name []) eqn:E1. { apply bytes_eqb_eq in E1 as ->. cbn. now rewrite app_nil_r. }
  destruct (bytes_eqb name [46]) eqn:E2. { apply bytes_eqb_eq in E2 as ->. cbn. now rewrite app_nil_r. }
  apply bytes_eqb_false in E1, E2. cbn [orb negb map].
  replace (bytes_eqb (utf8_enc name) []) with false by (symmetry; apply bytes_eqb_false; intro E; now apply (utf8_is name []) in E).
  replace (bytes_eqb (utf8_enc name) [46]) with false by (symmetry; apply bytes_eqb_false; intro E; now apply (utf8_is name [46]) in E).
  replace (bytes_eqb (utf8_enc name) [46; 46]) with false by (symmetry; apply bytes_eqb_false; intro E; now apply (utf8_is name [46; 46]) in E).
  reflexivity.
Qed.
Lemma m3u_slash name : In 47 (m3u name) <-> In 47 name.
Proof. unfold m3u. rewrite utf8_slash, in_app_iff. split; [intros [H|H]; [easy|]|tauto]. cbn in H. exfalso. repeat (destruct H as [H|H]; [easy|]). exact H. Qed.
Lemma m3u_len name : (4 <= List.length (m3u name))%nat.
Proof. unfold m3u, utf8_enc. rewrite flat_map_app, app_length. cbn. lia. Qed.
Lemma locate_file cwd p name : ~ In 47 name -> locate cwd (join p (m3u name)) = locate cwd p ++ [m3u name].
Proof.
  intro H1. assert (~ In 47 (m3u name)) as H by now rewrite m3u_slash. rewrite locate_join by now apply not_abs. rewrite split_name by easy. cbn [fold_left].
  unfold step. pose proof (m3u_len name) as L. destruct (m3u name) as [|a [|b [|c l]]]; cbn in L; try lia.
  replace (bytes_eqb (a :: b :: c :: l) []) with false by (symmetry; now apply bytes_eqb_false).
  replace (bytes_eqb (a :: b :: c :: l) [46]) with false by (symmetry; now apply bytes_eqb_false).
  replace (bytes_eqb (a :: b :: c :: l) [46; 46]) with false by (symmetry; now apply bytes_eqb_false). reflexivity.
Qed.
Lemma dir_of_app base a b : dir_of base (a ++ b) = dir_of (dir_of base a) b.
Proof. unfold dir_of. now rewrite filter_app, map_app, app_assoc. Qed.
Lemma flat_map_flat_map {A B C} (f : A -> list B) (g : B -> list C) l : flat_map g (flat_map f l) = flat_map (fun x => flat_map g (f x)) l.
Proof. induction l as [|x l IH]; [easy|]. cbn [flat_map]. now rewrite flat_map_app, IH. Qed.
Lemma map_flat_map {A B C} (f : A -> list B) (g : B -> C) l : map g (flat_map f l) = flat_map (fun x => map g (f x)) l.
Proof. induction l as [|x l IH]; [easy|]. cbn [flat_map]. now rewrite map_app, IH. Qed.
Lemma flat_map_ext_in {A B} (f g : A -> list B) l : (forall x, In x l -> f x = g x) -> flat_map f l = flat_map g l.
Proof. induction l as [|x l IH]; intro H; [easy|]. cbn [flat_map]. rewrite (H x (or_introl eq_refl)), IH; [easy|]. intros; apply H; now right. Qed.

Lemma walk_writes cwd out cont t : safe t -> forall p above, locate cwd p = dir_of (locate cwd out) above ->
  writes cwd (walk cont t p) = map (fun x => (dir_of (locate cwd out) (fst (fst x)) ++ [m3u (snd x)], cont (snd (fst x)))) (playlists above t) /\
  mkdirs cwd (walk cont t p) = map (fun x => dir_of (locate cwd out) (fst (fst x))) (playlists above t).
Proof.
  induction t as [i s ch IH|i s] using pnode_ind2; intros HS p above HP; cbn [walk playlists].
  - destruct HS as (S1 & S2 & SC). apply safe_all in SC. unfold writes, mkdirs. rewrite !flat_map_flat_map, !map_flat_map.
    rewrite Forall_forall in IH, SC.
    assert (locate cwd (join p (utf8_enc s)) = dir_of (locate cwd out) (above ++ [s])) as HL by (rewrite locate_folder by easy; now rewrite HP, dir_of_app).
    pose proof (fun c C => IH c C (SC c C) (join p (utf8_enc s)) (above ++ [s]) HL) as K.
    split; apply flat_map_ext_in; intros c C; apply (K c C).
  - cbn [writes mkdirs flat_map app map fst snd]. rewrite locate_file by exact HS. now rewrite HP.
Qed.
Lemma export_writes cwd out cont ts : Forall safe ts ->
  writes cwd (flat_map (fun t => walk cont t out) ts) =
    map (fun x => (dir_of (locate cwd out) (fst (fst x)) ++ [m3u (snd x)], cont (snd (fst x)))) (flat_map (playlists []) ts) /\
  mkdirs cwd (flat_map (fun t => walk cont t out) ts) = map (fun x => dir_of (locate cwd out) (fst (fst x))) (flat_map (playlists []) ts).
Proof.
  intro S. unfold writes, mkdirs. rewrite !flat_map_flat_map, !map_flat_map. rewrite Forall_forall in S.
  assert (locate cwd out = dir_of (locate cwd out) []) as HL by (unfold dir_of; cbn; now rewrite app_nil_r).
  pose proof (fun t I => walk_writes cwd out cont t (S t I) out [] HL) as K.
  split; apply flat_map_ext_in; intros t I; apply (K t I).
Qed.

(** Names that escape. *)
Lemma abs_playlist cont id s p : walk cont (PPlaylist id (47 :: s)) p = [MkDirs p; WriteFile (47 :: m3u s) (cont id)].
Proof. reflexivity. Qed.
Lemma abs_folder cont id s ch p q : walk cont (PFolder id (47 :: s) ch) p = walk cont (PFolder id (47 :: s) ch) q.
Proof. reflexivity. Qed.
Lemma dotdot_folder cwd cont id i s p : ~ In 47 s ->
  writes cwd (walk cont (PFolder id [46; 46] [PPlaylist i s]) p) = [(removelast (locate cwd p) ++ [m3u s], cont i)].
Proof.
  intro H. cbn [walk flat_map app]. unfold writes. cbn [flat_map app]. rewrite locate_file by easy. do 2 f_equal. f_equal.
  change (utf8_enc [46; 46]) with [46; 46]. rewrite locate_join by easy. reflexivity.
Qed.
Lemma dotdot_playlist cwd cont i s p : ~ In 47 s ->
  writes cwd (walk cont (PPlaylist i ([46; 46; 47] ++ s)) p) = [(removelast (locate cwd p) ++ [m3u s], cont i)].
Proof.
  intro H. cbn [walk]. unfold writes. cbn [flat_map app]. do 2 f_equal. change (m3u (46 :: 46 :: 47 :: s)) with ([46; 46] ++ 47 :: m3u s).
  rewrite locate_join by easy. rewrite split_app. rewrite fold_left_app. rewrite (split_name (m3u s)) by now rewrite m3u_slash.
  pose proof (locate_file [] [] s H) as K. unfold locate, join in K. rewrite not_abs in K by now rewrite m3u_slash.
  cbn [split fold_left]. unfold step at 1.
  pose proof (m3u_len s) as L. destruct (m3u s) as [|a [|b [|c l]]]; cbn in L; try lia.
  replace (bytes_eqb (a :: b :: c :: l) []) with false by (symmetry; now apply bytes_eqb_false).
  replace (bytes_eqb (a :: b :: c :: l) [46]) with false by (symmetry; now apply bytes_eqb_false).
  replace (bytes_eqb (a :: b :: c :: l) [46; 46]) with false by (symmetry; now apply bytes_eqb_false). reflexivity.
Qed.

(** ** Order of the tracks *)

(** The last element with a property. *)
Definition last_of {A} (P : A -> Prop) (l : list A) (x : A) : Prop := exists l1 l2, l = l1 ++ x :: l2 /\ P x /\ Forall (fun y => ~ P y) l2.
Lemma last_of_snoc {A} (P : A -> Prop) l y x : last_of P (l ++ [y]) x <-> (P y /\ x = y) \/ (~ P y /\ last_of P l x).
Proof.
  split.
  - intros (l1 & l2 & E & HP & F). destruct (exists_last (l := x :: l2) ltac:(easy)) as (l' & z & EZ).
    destruct l2 as [|w l2].
    + apply app_inj_tail in E as [-> ->]. left. easy.
    + destruct (exists_last (l := w :: l2) ltac:(easy)) as (l3 & v & EV). rewrite EV in *. change (x :: l3 ++ [v]) with ((x :: l3) ++ [v]) in E. rewrite app_assoc in E.
      apply app_inj_tail in E as [-> ->]. right. apply Forall_app in F as [F1 F2]. inversion F2; subst. split; [easy|]. now exists l1, l3.
  - intros [[HP ->]|[HN (l1 & l2 & -> & HP & F)]].
    + exists l, []. now repeat split.
    + exists l1, (l2 ++ [y]). split; [now rewrite <- app_assoc|]. split; [easy|]. apply Forall_app. split; [easy|]. now constructor.
Qed.
Lemma last_of_nil {A} (P : A -> Prop) x : ~ last_of P [] x.
Proof. intros (l1 & l2 & E & _). now destruct l1. Qed.

Lemma hm_get_upd {V} (m : list (N * V)) k d f k' :
  mm_get (hm_upd m k d f) k' = if k =? k' then Some (f (match mm_get m k with Some v => v | None => d end)) else mm_get m k'.
Proof.
  induction m as [|[k0 v] m IH]; cbn [hm_upd mm_get].
  - destruct (k =? k'); easy.
  - destruct (N.eqb_spec k0 k) as [->|E]; cbn [mm_get]; rewrite ?N.eqb_refl.
    + destruct (N.eqb_spec k k'); easy.
    + destruct (N.eqb_spec k0 k') as [->|E']; [destruct (N.eqb_spec k k'); [congruence|easy]|]. exact IH.
Qed.
Lemma tracks_get ts t p : mm_get (tracks_map ts) t = Some p <-> last_of (fun x => fst x = t) ts (t, p).
Proof.
  unfold tracks_map. induction ts as [|[i q] ts IH] using rev_ind; [split; [easy|intro H; now apply last_of_nil in H]|].
  rewrite fold_left_app. cbn [fold_left]. rewrite hm_get_upd, last_of_snoc, <- IH. cbn [fst snd].
  destruct (N.eqb_spec i t) as [->|E].
  - split; [intros [= <-]; left; easy|]. intros [[_ [= <-]]|[H _]]; easy.
  - split; [auto|]. intros [[H _]|[_ H]]; easy.
Qed.
Lemma tracks_none ts t : mm_get (tracks_map ts) t = None <-> ~ In t (map fst ts).
Proof.
  unfold tracks_map. induction ts as [|[i q] ts IH] using rev_ind; [easy|].
  rewrite fold_left_app. cbn [fold_left]. rewrite hm_get_upd, map_app, in_app_iff. cbn [map fst snd In].
  destruct (N.eqb_spec i t) as [->|E]; [split; [easy|intro H; exfalso; apply H; auto]|]. rewrite IH. tauto.
Qed.

Lemma entries_get es id : exists m, (match mm_get (entries_map es) id with Some m => m | None => [] end) = m /\ sorted m /\
  forall i t, map_get i m = Some t <-> last_of (fun e => pe_playlist e = id /\ pe_index e = i) es (mk_pentry i t id).
Proof.
  eexists. split; [reflexivity|]. unfold entries_map. induction es as [|e es [IHS IH]] using rev_ind.
  - cbn. split; [constructor|]. intros i t. split; [easy|intro H; now apply last_of_nil in H].
  - rewrite fold_left_app. cbn [fold_left]. rewrite hm_get_upd. destruct (N.eqb_spec (pe_playlist e) id) as [<-|E].
    + split; [now apply sorted_insert|]. intros i t. rewrite map_get_insert, last_of_snoc, <- IH. destruct (N.eqb_spec i (pe_index e)) as [->|E'].
      * split; [intros [= <-]; left; repeat split; now destruct e|]. intros [[_ H]|[H _]]; [now rewrite <- H|tauto].
      * split; [intro H; right; split; [|easy]; intros [_ ?]; congruence|]. intros [[[_ H] _]|[_ H]]; [congruence|easy].
    + split; [easy|]. intros i t. rewrite last_of_snoc, <- IH. split; [intro H; right; split; [tauto|easy]|intros [[[H _] _]|[_ H]]; easy].
Qed.

(** A path without one slash in front. *)
Definition unrooted (p : path) : path := match p with [] => [] | x :: r => if x =? 47 then r else p end.
Lemma strip_slash_eq p : strip_slash p = unrooted p.
Proof. destruct p as [|x t]; [easy|]. cbn [unrooted]. destruct (N.eqb_spec x 47) as [->|NX]; [easy|]. unfold strip_slash. destruct x as [|x]; [easy|]. do 6 (destruct x as [x|x|]; try reflexivity). now destruct NX. Qed.
(** The lines for a list of indices and tracks. *)
Inductive listed (canon : path) (ts : list (N * list N)) : list (N * N) -> list path -> Prop :=
| listed_nil : listed canon ts [] []
| listed_found i t p ps ls : last_of (fun x => fst x = t) ts (t, p) -> listed canon ts ps ls ->
    listed canon ts ((i, t) :: ps) (display (join canon (unrooted (utf8_enc p))) :: ls)
| listed_missing i t ps ls : ~ In t (map fst ts) -> listed canon ts ps ls -> listed canon ts ((i, t) :: ps) ls.

Lemma content_spec canon es ts id : exists ps ls,
  content canon (entries_map es) (tracks_map ts) id = flat_map (fun l => l ++ [10]) ls /\
  StronglySorted (fun x y => fst x < fst y) ps /\
  (forall i t, In (i, t) ps <-> last_of (fun e => pe_playlist e = id /\ pe_index e = i) es (mk_pentry i t id)) /\
  listed canon ts ps ls.
Proof.
  destruct (entries_get es id) as (m & EM & S & G). exists m.
  assert (exists ls, flat_map (fun x => match mm_get (tracks_map ts) (snd x) with Some p => display (join canon (strip_slash (utf8_enc p))) ++ [10] | None => [] end) m = flat_map (fun l => l ++ [10]) ls /\ listed canon ts m ls) as (ls & EL & L).
  { clear. induction m as [|[i t] m (ls & EL & L)]; [exists []; split; [easy|constructor]|]. cbn [flat_map snd]. rewrite EL.
    destruct (mm_get (tracks_map ts) t) as [p|] eqn:T.
    - exists (display (join canon (unrooted (utf8_enc p))) :: ls). split; [now rewrite strip_slash_eq|]. constructor; [now apply tracks_get|easy].
    - exists ls. split; [easy|]. constructor; [now apply tracks_none|easy]. }
  exists ls. split; [|split; [|split; [|easy]]].
  - unfold content. rewrite <- EL, <- EM. now destruct (mm_get (entries_map es) id).
  - unfold sorted, keys in S. clear -S. induction m as [|[i t] m IH]; [constructor|]. cbn [map fst] in S. inversion S as [|? ? S1 S2]; subst. constructor; [auto|].
    rewrite Forall_map in S2. exact S2.
  - intros i t. rewrite <- G. split; [now apply map_get_in|apply map_get_some].
Qed.
(** The text of the file of playlist [id], for these entries and tracks. *)
Definition playlist_text (canon : path) (es : list pentry) (ts : list (N * list N)) (id : N) (bs : list N) : Prop := exists ps ls,
  bs = flat_map (fun l => l ++ [10]) ls /\
  StronglySorted (fun x y => fst x < fst y) ps /\
  (forall i t, In (i, t) ps <-> last_of (fun e => pe_playlist e = id /\ pe_index e = i) es (mk_pentry i t id)) /\
  listed canon ts ps ls.
Lemma content_text canon es ts id : playlist_text canon es ts id (content canon (entries_map es) (tracks_map ts) id).
Proof. exact (content_spec canon es ts id). Qed.
Lemma walk_ext c c' : (forall id, c id = c' id) -> forall t p, walk c t p = walk c' t p.
Proof.
  intro H. induction t as [i s ch IH|i s] using pnode_ind2; intro p; cbn [walk]; [|now rewrite H]. induction IH as [|t ch H1 H2 IH2]; [easy|]. cbn [flat_map]. now rewrite H1, IH2.
Qed.
