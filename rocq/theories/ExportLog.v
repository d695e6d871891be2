(** * What is printed during an export, and what is on the disk then *)
From Coq Require Import NArith ZArith List Bool Lia Sorted String.
From Coq Require Import ZifyBool ZifyNat ZifyN.
From Verif Require Import Base BaseFacts Utf UtfFacts Str Schema Oa Rows Page Db Setting Device DeviceFacts DeviceTree Cli CliFacts CliList Listing Fs FsFacts FsExport Main Player.
Import ListNotations.
Local Close Scope string_scope.
Open Scope N_scope.

(** The files of a list of operations. *)
Definition pairs (ops : list fsop) : list (path * list N) := flat_map (fun o => match o with WriteFile p c => [(p, c)] | MkDirs _ => [] end) ops.

Lemma log_changed cwd f ops ps f' ok : run_log cwd f ops ps f' ok -> forall l, f' l = f l \/ (f l = None /\ f' l = Some EDir) \/ In l (map (locate cwd) ps).
Proof.
  induction 1 as [f|f p f1 ops ps f2 ok H1 H2 IH|f p f1 e ops H|f p k n f1 ops H|f p ops|f p c f1 ops ps f2 ok H1 H2 IH|f p c e ops H|f p c k f1 ops H|f p c ops]; intro l; try (now left).
  - apply create_dirs_made in H1. destruct (H1 l) as [E|(E1 & E2 & _)], (IH l) as [E3|[[E3 E4]|I]]; try (right; right; exact I).
    + left. congruence.
    + right. left. split; congruence.
    + right. left. split; congruence.
    + congruence.
  - apply create_dirs_made in H. destruct (H l) as [E|(E1 & E2 & _)]; [now left|right; now left].
  - pose proof (make_dirs_made n f (start cwd p) (firstn k (pieces p)) (nonempty_firstn _ _ (pieces_all p))) as HM. rewrite H in HM. destruct (HM l) as [E|(E1 & E2 & _)]; [now left|right; now left].
  - apply create_file_inv in H1 as (_ & -> & _). cbn [map In]. destruct (loc_eq_dec l (locate cwd p)) as [->|NL]; [right; right; now left|].
    specialize (IH l). rewrite put_other in IH by easy. tauto.
  - apply create_file_inv in H as (_ & -> & _). destruct (loc_eq_dec l (locate cwd p)) as [->|NL]; [right; right; now left|]. left. now rewrite put_other.
Qed.
Lemma log_pairs cwd f ops ps f' ok : run_log cwd f ops ps f' ok -> exists ws rest, pairs ops = ws ++ rest /\ ps = map fst ws /\ (ok = true -> rest = []) /\
  (forall w1 p c w2, ws = w1 ++ (p, c) :: w2 -> ~ In (locate cwd p) (map (fun x => locate cwd (fst x)) w2) -> ok = true \/ w2 <> [] -> f' (locate cwd p) = Some (EFile c)) /\
  (ok = false -> forall w1 p c, ws = w1 ++ [(p, c)] -> ~ In (locate cwd p) (map (fun x => locate cwd (fst x)) w1) ->
     f' (locate cwd p) = f (locate cwd p) \/ (f (locate cwd p) = None /\ f' (locate cwd p) = Some EDir) \/ exists k, f' (locate cwd p) = Some (EFile (firstn k c))).
Proof.
  assert (forall (w1 w2 : list (path * list N)) x, [] = w1 ++ x :: w2 -> False) as NIL by (intros [|] ?; easy).
  induction 1 as [f|f p f1 ops ps f2 ok H1 H2 IH|f p f1 e ops H|f p k n f1 ops H|f p ops|f p c f1 ops ps f2 ok H1 H2 IH|f p c e ops H|f p c k f1 ops H|f p c ops].
  - exists [], []. split; [easy|]. split; [easy|]. split; [easy|]. split; [intros w1 p c w2 E; now apply NIL in E|easy].
  - destruct IH as (ws & rest & E1 & E2 & E3 & E4 & E5). exists ws, rest. split; [exact E1|]. split; [exact E2|]. split; [exact E3|]. split; [exact E4|].
    intros HO w1 q c EW NI. apply create_dirs_made in H1. destruct (H1 (locate cwd q)) as [E|(A & B & _)], (E5 HO w1 q c EW NI) as [E'|[[A' B']|E']]; try (right; right; exact E').
    + left. congruence.
    + right. left. split; congruence.
    + right. left. split; congruence.
    + congruence.
  - exists [], (pairs ops). split; [easy|]. split; [easy|]. split; [easy|]. split; [intros w1 q c w2 E; now apply NIL in E|intros _ w1 q c E; now apply NIL in E].
  - exists [], (pairs ops). split; [easy|]. split; [easy|]. split; [easy|]. split; [intros w1 q c w2 E; now apply NIL in E|intros _ w1 q c E; now apply NIL in E].
  - exists [], (pairs ops). split; [easy|]. split; [easy|]. split; [easy|]. split; [intros w1 q c w2 E; now apply NIL in E|intros _ w1 q c E; now apply NIL in E].
  - pose proof (log_changed _ _ _ _ _ _ H2) as HC. destruct IH as (ws & rest & E1 & -> & E3 & E4 & E5). apply create_file_inv in H1 as (_ & -> & _). exists ((p, c) :: ws), rest.
    split; [change (pairs (WriteFile p c :: ops)) with ((p, c) :: pairs ops); now rewrite E1|]. split; [easy|]. split; [exact E3|]. split.
    + intros w1 q c' w2 EW NI HL. destruct w1 as [|x w1]; [|injection EW as _ EW; now apply (E4 w1 q c' w2)]. injection EW as -> -> ->. rewrite map_map in HC.
      destruct (HC (locate cwd q)) as [E|[[E _]|I]]; [now rewrite E, put_same|now rewrite put_same in E|easy].
    + intros HO w1 q c' EW NI. destruct w1 as [|x w1].
      * injection EW as -> -> ->. right. right. exists (List.length c'). rewrite firstn_all. destruct (HC (locate cwd q)) as [E|[[E _]|I]]; [now rewrite E, put_same|now rewrite put_same in E|easy].
      * injection EW as <- EW. cbn [map fst In] in NI. assert (locate cwd q <> locate cwd p) as NE by (intro E; apply NI; now left).
        destruct (E5 HO w1 q c' EW) as [E|[[A B]|E]]; [intro I; apply NI; now right| | |]; try rewrite put_other in E by easy; try rewrite put_other in A by easy; tauto.
  - exists [(p, c)], (pairs ops). split; [easy|]. split; [easy|]. split; [easy|]. split.
    + intros w1 q c' w2 E _ [HF|HF]; [easy|]. destruct w1 as [|x w1]; [now injection E as _ _ <-|]. injection E as _ E. now apply NIL in E.
    + intros _ w1 q c' E _. now left.
  - exists [(p, c)], (pairs ops). split; [easy|]. split; [easy|]. split; [easy|]. split.
    + intros w1 q c' w2 E _ [HF|HF]; [easy|]. destruct w1 as [|x w1]; [now injection E as _ _ <-|]. injection E as _ E. now apply NIL in E.
    + intros _ w1 q c' E _. destruct w1 as [|x w1]; [|injection E as _ E; now apply NIL in E]. injection E as -> ->. apply create_file_inv in H as (_ & -> & _). right. right. exists k. now rewrite put_same.
  - exists [(p, c)], (pairs ops). split; [easy|]. split; [easy|]. split; [easy|]. split.
    + intros w1 q c' w2 E _ [HF|HF]; [easy|]. destruct w1 as [|x w1]; [now injection E as _ _ <-|]. injection E as _ E. now apply NIL in E.
    + intros _ w1 q c' E _. now left.
Qed.

(** ** The texts of the paths *)
Definition file_of (out : path) (y : list (list N) * N * list N) : path := join (path_of out (fst (fst y))) (m3u (snd y)).
Lemma walk_pairs cont out ts : pairs (flat_map (fun t => walk cont t out) ts) = map (fun y => (file_of out y, cont (snd (fst y)))) (flat_map (playlists []) ts).
Proof.
  unfold pairs. rewrite flat_map_flat_map, map_flat_map. apply flat_map_ext_in. intros t _. pose proof (walk_list cont out t []) as E. cbn [path_of fold_left] in E. rewrite E, flat_map_flat_map. cbn [flat_map List.app].
  induction (playlists [] t) as [|y ys IH]; [easy|]. cbn [flat_map map List.app]. now f_equal.
Qed.
Lemma file_place cwd out ts : Forall safe ts -> Forall (fun y => locate cwd (file_of out y) = dir_of (locate cwd out) (fst (fst y)) ++ [m3u (snd y)]) (flat_map (playlists []) ts).
Proof.
  intro HS. pose proof (proj1 (export_writes cwd out (fun _ => []) ts HS)) as E. assert (forall ops, writes cwd ops = map (fun x => (locate cwd (fst x), snd x)) (pairs ops)) as EW.
  { induction ops as [|[p|p c] ops IH]; [easy|exact IH|]. unfold writes, pairs. cbn [flat_map List.app map fst snd]. f_equal. exact IH. }
  rewrite EW, walk_pairs, map_map in E. cbn [fst snd] in E. revert E. generalize (flat_map (playlists []) ts). induction l as [|y l IH]; [constructor|]. cbn [map]. intros [= E1 E2]. constructor; [exact E1|now apply IH].
Qed.
Lemma join_plain p q : p <> [] -> last p 0 <> 47 -> ~ In 47 q -> join p q = p ++ 47 :: q.
Proof.
  intros HP HL HQ. unfold join. rewrite (not_abs q HQ). unfold needs_sep. destruct p as [|x p]; [easy|]. destruct (N.eqb_spec (last (x :: p) 0) 47); [easy|]. reflexivity.
Qed.
Lemma path_text out above : forall p, p <> [] -> last p 0 <> 47 -> Forall (fun n => n <> [] /\ ~ In 47 n) above -> out = p ->
  path_of out above = p ++ flat_map (fun n => 47 :: utf8_enc n) above /\ path_of out above <> [] /\ last (path_of out above) 0 <> 47.
Proof.
  intros p HP HL HA ->. revert p HP HL. induction HA as [|n above [H1 H2] _ IH]; intros p HP HL; [cbn; rewrite app_nil_r; easy|]. unfold path_of. cbn [fold_left flat_map]. fold (path_of (join p (utf8_enc n)) above).
  assert (~ In 47 (utf8_enc n)) as HN by now rewrite utf8_slash. rewrite join_plain by easy. assert (utf8_enc n <> []) as HE by (intro E; now apply H1, utf8_nil).
  destruct (IH (p ++ 47 :: utf8_enc n)) as (E1 & E2 & E3); [now destruct p| |].
  - change (p ++ 47 :: utf8_enc n) with (p ++ [47] ++ utf8_enc n). rewrite app_assoc. destruct (exists_last HE) as (u & z & EZ). rewrite EZ, app_assoc, last_last. intro E. apply HN. rewrite EZ. apply in_or_app. right. now left.
  - split; [|easy]. rewrite E1, <- app_assoc. reflexivity.
Qed.
Lemma file_text out y : out <> [] -> last out 0 <> 47 -> Forall (fun n => n <> [] /\ ~ In 47 n) (fst (fst y)) -> ~ In 47 (snd y) ->
  file_of out y = out ++ flat_map (fun n => 47 :: utf8_enc n) (fst (fst y)) ++ 47 :: m3u (snd y).
Proof.
  intros H1 H2 H3 H4. destruct (path_text out (fst (fst y)) out H1 H2 H3 eq_refl) as (E1 & E2 & E3). unfold file_of. rewrite join_plain by (try easy; now rewrite m3u_slash). now rewrite E1, <- app_assoc.
Qed.
Lemma display_text names name : Forall ustr_ok names -> ustr_ok name -> forall out, display (out ++ flat_map (fun n => 47 :: utf8_enc n) names ++ 47 :: utf8_enc name) =
  display out ++ flat_map (fun n => 47 :: utf8_enc n) names ++ 47 :: utf8_enc name.
Proof.
  assert (forall s, ustr_ok s -> display (utf8_enc s) = utf8_enc s) as D by (intros s H; apply display_same; now exists s).
  intros HN HM. induction HN as [|n names H HN IH]; intro out; cbn [flat_map List.app]; rewrite display_app by lia; [now rewrite D|]. rewrite <- !app_assoc. now rewrite IH, D.
Qed.

(** The names of a tree are texts. *)
Lemma tree_names ns : Forall (fun n => forall s, decodes n s -> ustr_ok s) ns -> forall t n above, In n ns -> node_tree ns n t -> Forall ustr_ok above ->
  Forall (fun y => Forall ustr_ok (fst (fst y)) /\ ustr_ok (snd y)) (playlists above t).
Proof.
  intro HN. rewrite Forall_forall in HN. induction t as [i s ch IH|i s] using pnode_ind2; intros n above HI HT HA.
  - inversion HT as [n' s' ch' _ HD HC|]; subst. cbn [playlists]. apply tree_of_inv in HC. rewrite Forall_forall. intros y HY. apply in_flat_map in HY as (t & T & HY).
    destruct (Forall2_In_r _ _ _ t HC T) as (m & M & TM). apply filter_In in M as [M _]. rewrite Forall_forall in IH. assert (Forall ustr_ok (above ++ [s])) as HA' by (apply Forall_app; split; [easy|]; constructor; [|constructor]; now apply (HN n HI)).
    specialize (IH t T m (above ++ [s]) M TM HA'). rewrite Forall_forall in IH. now apply IH.
  - inversion HT as [|n' s' _ HD]; subst. cbn [playlists]. constructor; [|constructor]. split; [easy|]. now apply (HN n HI).
Qed.
Lemma trees_names ns id ts : Forall (fun n => forall s, decodes n s -> ustr_ok s) ns -> tree_of ns id ts -> Forall (fun y => Forall ustr_ok (fst (fst y)) /\ ustr_ok (snd y)) (flat_map (playlists []) ts).
Proof.
  intros HN HT. apply tree_of_inv in HT. rewrite Forall_forall. intros y HY. apply in_flat_map in HY as (t & T & HY). destruct (Forall2_In_r _ _ _ t HT T) as (m & M & TM). apply filter_In in M as [M _].
  pose proof (tree_names ns HN t m [] M TM ltac:(constructor)) as H. rewrite Forall_forall in H. now apply H.
Qed.
