(** * The playlist tree: termination and completeness *)
From Coq Require Import NArith ZArith List Bool Lia Relations.
From Coq Require Import ZifyBool ZifyNat ZifyN.
From Verif Require Import Base BaseFacts Str Schema Rows Page Db RowShape Device DeviceFacts.
Import ListNotations.
Open Scope N_scope.

(** ** Specification *)

(** [b] is a folder directly below [a]. *)
Definition below (ns : list node) (a b : N) : Prop := exists n, In n ns /\ nd_parent n = a /\ nd_id n = b /\ nd_folder n = true.
(** There is a chain of folders, each below the one before, from [a] to [b]. *)
Definition reaches (ns : list node) : N -> N -> Prop := clos_refl_trans_1n N (below ns).
Definition strictly (ns : list node) : N -> N -> Prop := clos_trans_1n N (below ns).
(** A row is connected to the root (id 0) by folders. *)
Definition connected (ns : list node) (n : node) : Prop := In n ns /\ reaches ns 0 (nd_parent n).
(** A folder that is its own ancestor and is reachable from the root. *)
Definition reachable_cycle (ns : list node) : Prop := exists x, reaches ns 0 x /\ strictly ns x x.

Definition decodes (n : node) (s : list N) : Prop := dstr_into_string (nd_name n) = inl s.

(** What a tree shows of a row: parent, id, whether it is a folder, name. *)
Definition entry : Type := N * N * bool * list N.
Definition parent_of (e : entry) : N := fst (fst (fst e)).
Definition id_of (e : entry) : N := snd (fst (fst e)).
Fixpoint entries (p : N) (t : pnode) : list entry :=
  match t with
  | PFolder i s ch => (p, i, true, s) :: flat_map (entries i) ch
  | PPlaylist i s => [(p, i, false, s)]
  end.
Definition shows (n : node) (e : entry) : Prop := exists s, decodes n s /\ e = (nd_parent n, nd_id n, nd_folder n, s).

(** The children of a folder are its rows in row order, folders with their children. *)
Inductive tree_of (ns : list node) : N -> list pnode -> Prop :=
| tree_of_intro id ts : Forall2 (node_tree ns) (filter (fun n => nd_parent n =? id) ns) ts -> tree_of ns id ts
with node_tree (ns : list node) : node -> pnode -> Prop :=
| node_tree_folder n s ch : nd_folder n = true -> decodes n s -> tree_of ns (nd_id n) ch -> node_tree ns n (PFolder (nd_id n) s ch)
| node_tree_playlist n s : nd_folder n = false -> decodes n s -> node_tree ns n (PPlaylist (nd_id n) s).

(** ** Paths *)
Lemma reaches_trans ns a b c : reaches ns a b -> reaches ns b c -> reaches ns a c.
Proof. intros H1 H2. unfold reaches in *. rewrite <- clos_rt_rt1n_iff in *. now apply rt_trans with b. Qed.
Lemma reaches_step ns a b : below ns a b -> reaches ns a b.
Proof. intro H. econstructor; [exact H|constructor]. Qed.
Lemma strictly_inv ns a c : strictly ns a c <-> exists b, below ns a b /\ reaches ns b c.
Proof.
  split.
  - intro H. destruct H as [c H|b c H1 H2].
    + exists c. split; [easy|constructor].
    + exists b. split; [easy|]. clear H1. induction H2 as [b c H|b x c H H2 IH]; [econstructor; [exact H|constructor]|econstructor; [exact H|exact IH]].
  - intros (b & H1 & H2). revert a H1. induction H2 as [b|b x c H H2 IH]; intros a H1; [now constructor|].
    econstructor 2; [exact H1|]. now apply IH.
Qed.
Lemma strictly_last ns a c : strictly ns a c -> exists b, reaches ns a b /\ below ns b c.
Proof.
  intro H. induction H as [a c H|a b c H1 H2 (x & IH1 & IH2)].
  - exists a. split; [constructor|easy].
  - exists x. split; [|easy]. apply reaches_trans with b; [now apply reaches_step|easy].
Qed.
Lemma reaches_last ns a c : reaches ns a c -> a = c \/ exists b, reaches ns a b /\ below ns b c.
Proof. intro H. destruct H as [|b c H1 H2]; [now left|right]. apply strictly_last. apply strictly_inv. eauto. Qed.

(** A path as a list. *)
Fixpoint chain (ns : list node) (a : N) (l : list N) : Prop :=
  match l with [] => True | b :: l => below ns a b /\ chain ns b l end.
Lemma deep_chain ns d : forall id, deep ns d id -> exists l, List.length l = d /\ chain ns id l.
Proof.
  induction d as [|d IH]; intros id; [intros _; now exists []|]. intros (n & I & P & F & D).
  destruct (IH _ D) as (l & L & C). exists (nd_id n :: l). cbn [List.length chain]. split; [lia|]. split; [|easy]. exists n. auto.
Qed.
Lemma chain_incl ns l : forall id, chain ns id l -> incl l (map nd_id ns).
Proof.
  induction l as [|b l IH]; intros id H; [easy|]. destruct H as [(n & I & _ & E & _) C]. apply incl_cons; [|now apply (IH b)].
  subst b. now apply in_map.
Qed.
Lemma chain_split ns l1 : forall id x l2, chain ns id (l1 ++ x :: l2) -> strictly ns id x /\ chain ns x l2.
Proof.
  induction l1 as [|y l1 IH]; intros id x l2 [B C].
  - split; [now constructor|easy].
  - destruct (IH _ _ _ C) as [R C']. split; [|easy]. econstructor 2; [exact B|exact R].
Qed.
Lemma strictly_reaches ns a b : strictly ns a b -> reaches ns a b.
Proof. intro H. apply strictly_inv in H as (x & H1 & H2). apply reaches_trans with x; [now apply reaches_step|easy]. Qed.
Lemma dup_or (l : list N) : NoDup l \/ exists x l1 l2 l3, l = l1 ++ x :: l2 ++ x :: l3.
Proof.
  induction l as [|a l [IH|(x & l1 & l2 & l3 & ->)]]; [left; constructor| |right; exists x, (a :: l1), l2, l3; easy].
  destruct (in_dec N.eq_dec a l) as [I|I]; [|left; now constructor]. right. apply in_split in I as (l2 & l3 & ->). exists a, [], l2, l3. easy.
Qed.
Lemma deep_cycle ns d id : (List.length ns < d)%nat -> deep ns d id -> exists x, reaches ns id x /\ strictly ns x x.
Proof.
  intros L D. apply deep_chain in D as (l & E & C). pose proof (chain_incl ns l id C) as I.
  destruct (dup_or l) as [ND|(x & l1 & l2 & l3 & ->)]; [pose proof (NoDup_incl_length ND I) as K; rewrite map_length in K; lia|].
  apply chain_split in C as [S C]. apply chain_split in C as [S' _]. exists x. split; [now apply strictly_reaches|easy].
Qed.
Lemma cycle_deep ns x : strictly ns x x -> forall d y, reaches ns y x -> deep ns d y.
Proof.
  intro C. induction d as [|d IH]; intros y R; [easy|].
  assert (strictly ns y x) as S by (destruct R as [|z w B R]; [easy|apply strictly_inv; eauto]).
  apply strictly_inv in S as (z & (n & I & P & E & F) & R'). exists n. repeat split; try easy. apply IH. now rewrite E.
Qed.

(** ** Termination *)
Lemma finished_done ns : forall d id, (forall n, In n ns -> reaches ns id (nd_parent n) -> exists s, decodes n s) ->
  (child_nodes d (by_parent ns) id = None /\ deep ns d id) \/ ((exists t, child_nodes d (by_parent ns) id = Some (Done t)) /\ ~ deep ns d id).
Proof.
  induction d as [|d IH]; intros id G; [now left|]. cbn [child_nodes deep]. rewrite by_parent_get.
  set (f := fun n : node => _).
  assert (forall n, In n (kids ns id) -> (f n = None /\ nd_folder n = true /\ deep ns d (nd_id n)) \/
    ((exists y, f n = Some (Done y)) /\ ~ (nd_folder n = true /\ deep ns d (nd_id n)))) as K.
  { intros n I. apply filter_In in I as [I P]. apply N.eqb_eq in P. destruct (G n I) as [s E]; [rewrite P; constructor|].
    unfold f. unfold decodes in E. rewrite E. destruct (nd_folder n) eqn:F.
    - assert (forall m, In m ns -> reaches ns (nd_id n) (nd_parent m) -> exists s, decodes m s) as G'.
      2:{ destruct (IH (nd_id n) G') as [[E' D]|[[t E'] D]]; rewrite E'; [left; now repeat split|right; split; [now eexists|tauto]]. }
      intros m M R. apply G; [easy|]. apply reaches_trans with (nd_id n); [|easy]. apply reaches_step. exists n. auto.
    - right. split; [eexists; reflexivity|]. now intros [? _]. }
  assert (forall y, In y (kids ns id) -> f y = None \/ exists z, f y = Some (Done z)) as K'.
  { intros y Y. destruct (K y Y) as [(->&_)|[? _]]; auto. }
  destruct (collect_map_cases f _ K') as [C|[ys C]]; fold f; rewrite C.
  - left. split; [easy|]. apply collect_map_none in C as (n & I & C). destruct (K n I) as [(_ & F & D)|[[y E] _]]; [|congruence].
    apply filter_In in I as [I P]. exists n. repeat split; [easy|lia|easy|easy].
  - right. split; [eauto|]. intros (n & I & P & F & D). assert (In n (kids ns id)) as I' by (apply filter_In; split; [easy|lia]).
    destruct (K n I') as [(E & _)|[_ E]]; [|tauto].
    now rewrite (collect_map_none_if f _ n K' I' E) in C.
Qed.

Lemma collect_map_more {A B} (f g : A -> option (outcome B)) l r : (forall x y, f x = Some y -> g x = Some y) ->
  collect_map f l = Some r -> collect_map g l = Some r.
Proof.
  intro H. revert r. induction l as [|x l IH]; intros r E; [easy|]. cbn [collect_map] in *.
  destruct (f x) as [o|] eqn:F; [|easy]. rewrite (H x o F). destruct o as [y|e|]; [|easy|easy].
  destruct (collect_map f l) as [o|] eqn:C; [|easy]. now rewrite (IH o).
Qed.
Lemma child_more m d : forall id r, child_nodes d m id = Some r -> child_nodes (S d) m id = Some r.
Proof.
  induction d as [|d IH]; intros id r H; [easy|]. cbn [child_nodes] in H. remember (S d) as d' eqn:ED. cbn [child_nodes].
  eapply collect_map_more; [|exact H]. cbv beta. intros n y Y. destruct (dstr_into_string (nd_name n)) as [s|e]; [|easy].
  destruct (nd_folder n); [|easy]. subst d'. destruct (child_nodes d m (nd_id n)) as [o|] eqn:C; [|easy]. now rewrite (IH _ _ C).
Qed.
Lemma child_stable m d d' id r : (d <= d')%nat -> child_nodes d m id = Some r -> child_nodes d' m id = Some r.
Proof. intro L. induction L as [|d' L IH]; [easy|]. intro H. apply child_more. auto. Qed.

Lemma collect_map_done {A B} (f : A -> option (outcome B)) l : forall ys, collect_map f l = Some (Done ys) -> Forall2 (fun x y => f x = Some (Done y)) l ys.
Proof.
  induction l as [|x l IH]; cbn [collect_map]; intros ys H; [injection H as <-; constructor|].
  destruct (f x) as [[y|e|]|] eqn:F; try easy. destruct (collect_map f l) as [[zs|e|]|] eqn:C; try easy. injection H as <-. constructor; [easy|now apply IH].
Qed.
Lemma Forall2_in_l {A B} (R S : A -> B -> Prop) l l' : (forall x y, In x l -> R x y -> S x y) -> Forall2 R l l' -> Forall2 S l l'.
Proof. intros H F. induction F as [|x y l l' HR F IH]; constructor; [apply H; [now left|easy]|apply IH; intros; apply H; [now right|easy]]. Qed.
Lemma child_tree ns d : forall id ts, child_nodes d (by_parent ns) id = Some (Done ts) -> tree_of ns id ts.
Proof.
  induction d as [|d IH]; intros id ts H; [easy|]. cbn [child_nodes] in H. rewrite by_parent_get in H. constructor.
  apply collect_map_done in H. eapply Forall2_in_l; [|exact H]. cbv beta. intros n t _ E.
  destruct (dstr_into_string (nd_name n)) as [s|e] eqn:D; [|easy]. destruct (nd_folder n) eqn:F.
  - destruct (child_nodes d (by_parent ns) (nd_id n)) as [[ch|e|]|] eqn:C; try easy. assert (t = PFolder (nd_id n) s ch) as -> by congruence. constructor; auto.
  - assert (t = PPlaylist (nd_id n) s) as -> by congruence. constructor; auto.
Qed.
Lemma collect_map_other {A B} (f : A -> option (outcome B)) l r : collect_map f l = Some r -> (forall ys, r <> Done ys) ->
  exists x, In x l /\ match r with Done _ => False | Fail e => f x = Some (Fail e) | Crash => f x = Some Crash end.
Proof.
  revert r. induction l as [|x l IH]; cbn [collect_map]; intros r H N; [injection H as <-; now destruct (N [])|].
  destruct (f x) as [[y|e|]|] eqn:F; try easy.
  - destruct (collect_map f l) as [[zs|e|]|] eqn:C; try easy.
    + injection H as <-. now destruct (N (y :: zs)).
    + injection H as <-. destruct (IH (Fail e) eq_refl) as (z & Z & E); [easy|]. exists z. split; [now right|easy].
    + injection H as <-. destruct (IH Crash eq_refl) as (z & Z & E); [easy|]. exists z. split; [now right|easy].
  - injection H as <-. exists x. split; [now left|easy].
  - injection H as <-. exists x. split; [now left|easy].
Qed.
Lemma child_fail ns d : forall id r, child_nodes d (by_parent ns) id = Some r -> (forall ts, r <> Done ts) ->
  r = Fail PEncoding /\ exists n, In n ns /\ reaches ns id (nd_parent n) /\ ~ exists s, decodes n s.
Proof.
  induction d as [|d IH]; intros id r H N; [easy|]. cbn [child_nodes] in H. rewrite by_parent_get in H.
  apply collect_map_other in H as (n & I & H); [|easy]. apply filter_In in I as [I P]. apply N.eqb_eq in P.
  destruct (dstr_into_string (nd_name n)) as [s|e] eqn:D.
  - destruct (nd_folder n) eqn:F; [|now destruct r].
    destruct (child_nodes d (by_parent ns) (nd_id n)) as [o|] eqn:C; [|now destruct r].
    assert (r = match o with Done _ => r | Fail e => Fail e | Crash => Crash end /\ forall ts, o <> Done ts) as [R N'].
    { destruct o, r; try easy; split; congruence. }
    destruct (IH _ _ C N') as (-> & m & M & RM & B). split; [now rewrite R|]. exists m. repeat split; try easy.
    apply reaches_trans with (nd_id n); [|easy]. apply reaches_step. exists n. auto.
  - destruct r as [x|e'|]; try easy. split; [congruence|]. exists n. repeat split; [easy|rewrite P; constructor|].
    intros [s E]. unfold decodes in E. congruence.
Qed.
Lemma tree_decodes ns id x : reaches ns id x -> forall ts, tree_of ns id ts -> forall n, In n ns -> nd_parent n = x -> exists s, decodes n s.
Proof.
  assert (forall id ts, tree_of ns id ts -> forall n, In n ns -> nd_parent n = id -> exists t, node_tree ns n t) as K.
  { intros i ts T n I P. destruct T as [i ts T]. assert (In n (filter (fun n => nd_parent n =? i) ns)) as J by (apply filter_In; split; [easy|lia]).
    clear I P. induction T as [|m t l ts H T IH]; [easy|]. destruct J as [->|J]; [eauto|auto]. }
  intro R. induction R as [x|x y z B R IH]; intros ts T n I P.
  - destruct (K _ _ T n I P) as [t H]. destruct H; eauto.
  - destruct B as (m & M & MP & ME & MF). destruct (K _ _ T m M MP) as [t H]. destruct H as [m s ch F D T'|m s F D]; [|congruence].
    apply (IH ch); try easy. now rewrite <- ME.
Qed.

Lemma never_ends ns : (forall n, connected ns n -> exists s, decodes n s) ->
  (forall depth, playlist_tree depth ns = None) <-> reachable_cycle ns.
Proof.
  intro G. split.
  - intro H. specialize (H (S (List.length ns))). apply unfinished_deep in H. apply deep_cycle in H; [|lia]. exact H.
  - intros (x & R & C) depth. assert (forall n, In n ns -> reaches ns 0 (nd_parent n) -> exists s, decodes n s) as G' by (intros n I RN; apply G; now split).
    destruct (finished_done ns depth 0 G') as [[H _]|[_ H]]; [exact H|].
    destruct H. now apply cycle_deep with x.
Qed.
Lemma ends ns : ~ reachable_cycle ns -> exists r, (forall depth, (List.length ns < depth)%nat -> playlist_tree depth ns = Some r) /\
  match r with
  | Done ts => tree_of ns 0 ts /\ forall n, connected ns n -> exists s, decodes n s
  | Fail e => e = PEncoding /\ exists n, connected ns n /\ ~ exists s, decodes n s
  | Crash => False
  end.
Proof.
  intro NC. unfold playlist_tree. destruct (child_nodes (S (List.length ns)) (by_parent ns) 0) as [r|] eqn:E.
  - exists r. split; [intros depth L; now apply child_stable with (S (List.length ns))|].
    destruct r as [ts|e|].
    + pose proof (child_tree _ _ _ _ E) as T. split; [easy|]. intros n [I R]. now apply (tree_decodes ns 0 (nd_parent n) R ts T).
    + apply child_fail in E as (E & n & I & R & B); [|easy]. split; [congruence|]. exists n. now repeat split.
    + apply child_fail in E as (E & _); easy.
  - destruct NC. apply unfinished_deep in E. apply deep_cycle in E; [exact E|lia].
Qed.
(** With or without names that decode: without end only if there is a cycle. *)
Lemma endless_cycle ns : (forall depth, playlist_tree depth ns = None) -> reachable_cycle ns.
Proof. intro H. specialize (H (S (List.length ns))). apply unfinished_deep in H. apply deep_cycle in H; [exact H|lia]. Qed.

(** ** Distinct ids *)
Definition distinct_ids (ns : list node) : Prop := NoDup (map nd_id ns) /\ ~ In 0 (map nd_id ns).

Lemma nodup_inj {A B} (f : A -> B) l x y : NoDup (map f l) -> In x l -> In y l -> f x = f y -> x = y.
Proof.
  induction l as [|z l IH]; intros ND X Y E; [easy|]. cbn [map] in ND. inversion ND as [|? ? N1 N2]; subst.
  destruct X as [->|X], Y as [->|Y]; [easy| | |auto]; destruct N1; [rewrite E|rewrite <- E]; now apply in_map.
Qed.
Lemma below_fun ns a a' b : NoDup (map nd_id ns) -> below ns a b -> below ns a' b -> a = a'.
Proof.
  intros ND (n & I & P & E & _) (n' & I' & P' & E' & _). assert (n = n') as -> by (apply (nodup_inj nd_id ns); [easy|easy|easy|congruence]). congruence.
Qed.
Lemma distinct_acyclic ns : distinct_ids ns -> ~ reachable_cycle ns.
Proof.
  intros [ND NZ] (x & R & C). unfold reaches in R. rewrite <- clos_rt_rt1n_iff, clos_rt_rtn1_iff in R.
  induction R as [|y x B R IH].
  - apply strictly_last in C as (b & _ & (n & I & _ & E & _)). apply NZ. rewrite <- E. now apply in_map.
  - apply IH. apply strictly_last in C as (z & RZ & BZ). assert (z = y) as -> by now apply (below_fun ns z y x).
    apply strictly_inv. eauto.
Qed.
Lemma comparable ns b b' p : NoDup (map nd_id ns) -> reaches ns b p -> reaches ns b' p -> reaches ns b b' \/ reaches ns b' b.
Proof.
  intros ND R. pose proof R as R0. unfold reaches in R. rewrite <- clos_rt_rt1n_iff, clos_rt_rtn1_iff in R. clear R0. revert b'.
  induction R as [|q p B R IH]; intros b' R'; [now right|].
  apply reaches_last in R' as [->|(q' & R' & B')].
  - left. apply reaches_trans with q; [|now apply reaches_step]. unfold reaches. now rewrite <- clos_rt_rt1n_iff, clos_rt_rtn1_iff.
  - assert (q' = q) as -> by now apply (below_fun ns q' q p). auto.
Qed.
(** Two folders below [id] have no folder below them in common. *)
Lemma disjoint ns id b b' p : distinct_ids ns -> reaches ns 0 id -> below ns id b -> below ns id b' -> reaches ns b p -> reaches ns b' p -> b = b'.
Proof.
  intros D R0 B B' R R'. assert (forall c c', below ns id c -> below ns id c' -> reaches ns c c' -> c = c') as K.
  { intros c c' C C' RC. apply reaches_last in RC as [->|(x & RX & BX)]; [easy|]. exfalso.
    assert (x = id) as -> by (apply (below_fun ns x id c'); [now destruct D|easy|easy]). apply (distinct_acyclic ns D). exists id. split; [easy|].
    apply strictly_inv. eauto. }
  destruct D as [ND NZ]. destruct (comparable ns b b' p ND R R') as [H|H]; [auto|symmetry; auto].
Qed.

(** ** Entries *)
Lemma pnode_ind2 (P : pnode -> Prop) : (forall i s ch, Forall P ch -> P (PFolder i s ch)) -> (forall i s, P (PPlaylist i s)) -> forall t, P t.
Proof.
  intros H1 H2. fix IH 1. intros [i s ch|i s]; [|apply H2]. apply H1. induction ch as [|c ch IHch]; constructor; [apply IH|apply IHch].
Qed.
Lemma Forall2_In_r {A B} (R : A -> B -> Prop) l l' y : Forall2 R l l' -> In y l' -> exists x, In x l /\ R x y.
Proof. intro F. induction F as [|a b l l' HR F IH]; intros I; [easy|]. destruct I as [->|I]; [exists a; split; [now left|easy]|]. destruct (IH I) as (x & X & HX). exists x. split; [now right|easy]. Qed.
Lemma Forall2_In_l {A B} (R : A -> B -> Prop) l l' x : Forall2 R l l' -> In x l -> exists y, In y l' /\ R x y.
Proof. intro F. induction F as [|a b l l' HR F IH]; intros I; [easy|]. destruct I as [->|I]; [exists b; split; [now left|easy]|]. destruct (IH I) as (y & Y & HY). exists y. split; [now right|easy]. Qed.

Lemma in_kids ns id n : In n (filter (fun n => nd_parent n =? id) ns) <-> In n ns /\ nd_parent n = id.
Proof. rewrite filter_In, N.eqb_eq. easy. Qed.

Lemma tree_of_inv ns id ts : tree_of ns id ts -> Forall2 (node_tree ns) (filter (fun n => nd_parent n =? id) ns) ts.
Proof. now intros [? ? H]. Qed.

(** Entries below a node: itself, or rows below it. *)
Lemma entries_sound ns t : forall n, node_tree ns n t -> In n ns -> exists e rest, entries (nd_parent n) t = e :: rest /\ shows n e /\
  (forall e', In e' rest -> nd_folder n = true /\ exists m, In m ns /\ shows m e' /\ reaches ns (nd_id n) (nd_parent m)) /\
  match t with PFolder i _ ch => rest = flat_map (entries i) ch /\ i = nd_id n /\ nd_folder n = true /\ tree_of ns i ch | PPlaylist _ _ => rest = [] end.
Proof.
  induction t as [i s ch IH|i s] using pnode_ind2; intros n T I.
  - inversion T as [n' s' ch' F D TC|]; subst. exists (nd_parent n, nd_id n, true, s), (flat_map (entries (nd_id n)) ch). cbn [entries].
    split; [easy|]. split; [exists s; now rewrite F|]. split; [|easy]. intros e' E. split; [easy|].
    apply in_flat_map in E as (c & C & E). destruct TC as [id ch TC]. destruct (Forall2_In_r _ _ _ c TC C) as (m & M & HM).
    apply in_kids in M as [M MP]. rewrite Forall_forall in IH. destruct (IH c C m HM M) as (e0 & rest & EE & S0 & SR & _).
    rewrite MP in EE. rewrite EE in E. destruct E as [<-|E].
    + exists m. repeat split; [easy|easy|rewrite MP; constructor].
    + destruct (SR e' E) as (MF & m' & M' & S' & R'). exists m'. repeat split; [easy|easy|].
      apply reaches_trans with (nd_id m); [|easy]. apply reaches_step. exists m. auto.
  - inversion T as [|n' s' F D]; subst. exists (nd_parent n, nd_id n, false, s), []. cbn [entries]. repeat split; [|easy|easy]. exists s. now rewrite F.
Qed.
Lemma shows_parent n e : shows n e -> parent_of e = nd_parent n. Proof. intros (s & _ & ->). easy. Qed.
Lemma shows_id n e : shows n e -> id_of e = nd_id n. Proof. intros (s & _ & ->). easy. Qed.
Lemma shows_fun n e e' : shows n e -> shows n e' -> e = e'.
Proof. intros (s & D & ->) (s' & D' & ->). unfold decodes in *. congruence. Qed.

Definition with_parent (p : N) (es : list entry) : list entry := filter (fun e => parent_of e =? p) es.
Lemma with_parent_none p es : (forall e, In e es -> parent_of e <> p) -> with_parent p es = [].
Proof.
  intro H. unfold with_parent. induction es as [|e es IH]; [easy|]. cbn [filter]. destruct (N.eqb_spec (parent_of e) p) as [E|_]; [now destruct (H e (or_introl eq_refl))|].
  apply IH. intros; apply H; now right.
Qed.

Definition ordered (ns : list node) (t : pnode) : Prop := forall n, node_tree ns n t -> In n ns -> reaches ns 0 (nd_parent n) ->
  match t with PFolder i _ ch => forall p, reaches ns i p -> Forall2 shows (filter (fun n => nd_parent n =? p) ns) (with_parent p (flat_map (entries i) ch)) | PPlaylist _ _ => True end.

Lemma order_list ns id ts : distinct_ids ns -> Forall (ordered ns) ts -> tree_of ns id ts -> reaches ns 0 id -> forall p, reaches ns id p ->
  Forall2 shows (filter (fun n => nd_parent n =? p) ns) (with_parent p (flat_map (entries id) ts)).
Proof.
  intros D HO T R0 p R. destruct T as [id ts T]. destruct (N.eq_dec p id) as [->|NE].
  - assert (forall n, In n (filter (fun n => nd_parent n =? id) ns) -> In n ns /\ nd_parent n = id) as K by (intro; apply in_kids).
    clear HO. induction T as [|n t l ts H T IH]; [constructor|]. destruct (K n (or_introl eq_refl)) as [I P].
    cbn [flat_map]. unfold with_parent in *. rewrite filter_app.
    destruct (entries_sound ns t n H I) as (e & rest & E & S & SR & _). rewrite P in E. rewrite E. cbn [filter].
    rewrite (shows_parent _ _ S), P, N.eqb_refl. fold (with_parent id rest). rewrite with_parent_none; [cbn [app]; constructor; [easy|]; apply IH; intros; apply K; now right|].
    intros e' E' PE. destruct (SR e' E') as (F & m & M & SM & RM). rewrite (shows_parent _ _ SM) in PE. rewrite PE in RM.
    apply (distinct_acyclic ns D). exists id. split; [easy|]. apply strictly_inv. exists (nd_id n). split; [|easy]. exists n. auto.
  - destruct R as [|b p B R]; [easy|]. pose proof B as (n & I & P & E & F).
    assert (In n (filter (fun n => nd_parent n =? id) ns)) as J by now apply in_kids.
    pose proof (in_kids ns id) as KI.
    assert (NoDup (map nd_id (filter (fun n => nd_parent n =? id) ns))) as ND.
    { destruct D as [D _]. clear -D. induction ns as [|m ns IH]; [constructor|]. cbn [filter map] in *. inversion D as [|? ? D1 D2]; subst.
      destruct (nd_parent m =? id); [|auto]. cbn [map]. constructor; [|auto]. intro H. apply D1. apply in_map_iff in H as (y & <- & Y). apply in_map. now apply filter_In in Y. }
    set (ks := filter (fun n => nd_parent n =? id) ns) in *. clearbody ks.
    assert (forall l ts', (forall m, In m l -> In m ks /\ nd_id m <> b) -> Forall2 (node_tree ns) l ts' -> with_parent p (flat_map (entries id) ts') = []) as Z.
    { intros l ts' HL T'. apply with_parent_none. intros e HE PE. apply in_flat_map in HE as (t & HT & HE).
      destruct (Forall2_In_r _ _ _ t T' HT) as (m & M & TM). destruct (HL m M) as [MK MB]. apply KI in MK as [MI MP].
      destruct (entries_sound ns t m TM MI) as (e0 & rest & EE & S0 & SR & _). rewrite MP in EE. rewrite EE in HE. destruct HE as [<-|HE].
      - rewrite (shows_parent _ _ S0) in PE. congruence.
      - destruct (SR e HE) as (MF & m' & M' & SM' & RM'). rewrite (shows_parent _ _ SM') in PE. rewrite PE in RM'.
        apply MB. apply (disjoint ns id (nd_id m) b p); try easy. exists m. auto. }
    apply in_split in J as (l1 & l2 & EK). rewrite EK in T. apply Forall2_app_inv_l in T as (t1 & t2 & T1 & T2 & ->). inversion T2 as [|? t ? t2' HT T2']; subst.
    rewrite map_app in ND. cbn [map] in ND. apply NoDup_remove_2 in ND. rewrite in_app_iff in ND.
    rewrite flat_map_app. cbn [flat_map]. unfold with_parent. rewrite !filter_app. fold (with_parent p (flat_map (entries (nd_parent n)) t1)) (with_parent p (entries (nd_parent n) t)) (with_parent p (flat_map (entries (nd_parent n)) t2')).
    rewrite (Z l1 t1), (Z l2 t2'); [|intros m M; split; [apply in_app_iff; right; now right|]|easy|intros m M; split; [apply in_app_iff; now left|]|easy].
    + rewrite app_nil_r. cbn [app]. destruct (entries_sound ns t n HT I) as (e & rest & EE & S & SR & MT). rewrite EE.
      rewrite Forall_app in HO. destruct HO as [_ HO]. inversion HO as [|? ? HO1 _]; subst.
      specialize (HO1 n HT I R0). destruct t as [i s ch|i s]; [|inversion HT; congruence]. destruct MT as (-> & -> & _ & _).
      unfold with_parent. cbn [filter]. rewrite (shows_parent _ _ S). replace (nd_parent n =? p) with false by lia. now apply HO1.
    + intro EM. apply ND. right. rewrite <- EM. now apply in_map.
    + intro EM. apply ND. left. rewrite <- EM. now apply in_map.
Qed.
Lemma all_ordered ns t : distinct_ids ns -> ordered ns t.
Proof.
  intro D. induction t as [i s ch IH|i s] using pnode_ind2; intros n T I R; [|easy]. intros p RP.
  inversion T as [n' s' ch' F DC TC|]; subst. apply order_list; try easy.
  apply reaches_trans with (nd_parent n); [easy|]. apply reaches_step. exists n. auto.
Qed.
Lemma nodup_by_parent (es : list entry) : (forall e e', In e es -> In e' es -> id_of e = id_of e' -> parent_of e = parent_of e') ->
  (forall p, NoDup (map id_of (with_parent p es))) -> NoDup (map id_of es).
Proof.
  induction es as [|e es IH]; intros H1 H2; [constructor|]. cbn [map]. constructor.
  - intro HI. apply in_map_iff in HI as (e' & E & I). specialize (H2 (parent_of e)). unfold with_parent in H2. cbn [filter] in H2. rewrite N.eqb_refl in H2.
    cbn [map] in H2. inversion H2 as [|? ? N1 _]; subst. apply N1. apply in_map_iff. exists e'. split; [easy|]. apply filter_In. split; [easy|].
    apply N.eqb_eq. apply H1; [now right|now left|easy].
  - apply IH; [intros; apply H1; [now right|now right|easy]|]. intro p. specialize (H2 p). unfold with_parent in *. cbn [filter] in H2.
    destruct (parent_of e =? p); [|easy]. cbn [map] in H2. now inversion H2.
Qed.

Lemma complete ns : distinct_ids ns -> (forall n, connected ns n -> exists s, decodes n s) ->
  exists ts, (forall depth, (List.length ns < depth)%nat -> playlist_tree depth ns = Some (Done ts)) /\
    let es := flat_map (entries 0) ts in
    NoDup (map id_of es) /\
    (forall e, In e es <-> exists n, connected ns n /\ shows n e) /\
    (forall p, reaches ns 0 p -> Forall2 shows (filter (fun n => nd_parent n =? p) ns) (filter (fun e => parent_of e =? p) es)).
Proof.
  intros D G. destruct (ends ns (distinct_acyclic ns D)) as ([ts|e|] & HD & HR); [|destruct HR as (_ & n & C & B); now destruct B; apply G|easy].
  exists ts. split; [easy|]. destruct HR as [T _]. cbv zeta.
  assert (reaches ns 0 0) as R0 by constructor.
  assert (forall p, reaches ns 0 p -> Forall2 shows (filter (fun n => nd_parent n =? p) ns) (with_parent p (flat_map (entries 0) ts))) as O.
  { apply order_list; try easy. apply Forall_forall. intros. now apply all_ordered. }
  assert (forall e, In e (flat_map (entries 0) ts) -> exists n, connected ns n /\ shows n e) as S.
  { intros e E. apply in_flat_map in E as (t & HT & E). apply tree_of_inv in T. destruct (Forall2_In_r _ _ _ t T HT) as (m & M & TM).
    apply in_kids in M as [M MP]. destruct (entries_sound ns t m TM M) as (e0 & rest & EE & S0 & SR & _). rewrite MP in EE. rewrite EE in E. destruct E as [<-|E].
    - exists m. repeat split; [easy|rewrite MP; constructor|easy].
    - destruct (SR e E) as (F & m' & M' & S' & R'). exists m'. repeat split; [easy| |easy]. econstructor; [|exact R']. rewrite <- MP. exists m. auto. }
  split; [|split; [|exact O]].
  - apply nodup_by_parent.
    + intros e e' E E' EQ. destruct (S e E) as (n & [I _] & SN). destruct (S e' E') as (n' & [I' _] & SN').
      rewrite (shows_id _ _ SN), (shows_id _ _ SN') in EQ. rewrite (shows_parent _ _ SN), (shows_parent _ _ SN').
      f_equal. destruct D as [D _]. now apply (nodup_inj nd_id ns).
    + intro p. destruct (with_parent p (flat_map (entries 0) ts)) as [|e0 l0] eqn:W; [constructor|]. rewrite <- W.
      assert (reaches ns 0 p) as R.
      { assert (In e0 (with_parent p (flat_map (entries 0) ts))) as E0 by (rewrite W; now left). apply filter_In in E0 as [E0 P0]. apply N.eqb_eq in P0.
        destruct (S e0 E0) as (n & [_ R] & SN). now rewrite (shows_parent _ _ SN) in P0; subst. }
      specialize (O p R). assert (map id_of (with_parent p (flat_map (entries 0) ts)) = map nd_id (filter (fun n => nd_parent n =? p) ns)) as ->.
      { clear -O. induction O as [|n e l l' H F IH]; [easy|]. cbn [map]. now rewrite IH, (shows_id _ _ H). }
      destruct D as [D _]. clear -D. induction ns as [|m ns IH]; [constructor|]. cbn [filter map] in *. inversion D as [|? ? D1 D2]; subst.
      destruct (nd_parent m =? p); [|auto]. cbn [map]. constructor; [|auto]. intro H. apply D1. apply in_map_iff in H as (y & <- & Y). apply in_map. now apply filter_In in Y.
  - intro e. split; [apply S|]. intros (n & [I R] & SN). specialize (O (nd_parent n) R).
    destruct (Forall2_In_l _ _ _ n O) as (e' & E' & SE); [now apply in_kids|]. apply filter_In in E' as [E' _].
    now rewrite (shows_fun n e e' SN SE).
Qed.

(** ** From a database *)
Lemma node_of_shaped r : row_shaped r -> is_variant KPlaylistTreeNode r = true -> exists n, node_of_row r = Some n.
Proof.
  destruct r as [k vs oc|]; [|easy]. intros [F O] V. cbn [is_variant] in V. destruct (rkind_eq_dec KPlaylistTreeNode k) as [<-|]; [|easy].
  cbn [row_fields] in F.
  repeat match goal with H : Forall2 _ (_ :: _) _ |- _ => inversion H; clear H; subst | H : Forall2 _ [] _ |- _ => inversion H; clear H; subst end.
  repeat match goal with H : vshape ?f ?v |- _ => destruct v; try contradiction H; clear H end. cbn. eauto.
Qed.
Lemma all_some_map {A B} (f : A -> option B) l : (forall x, In x l -> exists y, f x = Some y) ->
  exists ys, all_some (map f l) = Some ys /\ Forall2 (fun x y => f x = Some y) l ys.
Proof.
  induction l as [|x l IH]; intro H; [exists []; split; [easy|constructor]|]. destruct (H x (or_introl eq_refl)) as [y E].
  destruct IH as (ys & EY & F); [intros; apply H; now right|]. exists (y :: ys). cbn [map all_some]. rewrite E, EY. split; [easy|now constructor].
Qed.
(** The rows of the table of playlists, as nodes: where reading the table succeeds, [get_playlists] is [playlist_tree] of these. *)
Lemma get_playlists_rows b d rows : db_shaped d -> snd (iter_rows b KPlaylistTreeNode d) = Some (DOk rows) ->
  exists ns, Forall2 (fun r n => node_of_row r = Some n) rows ns /\ forall depth, get_playlists b depth d = playlist_tree depth ns.
Proof.
  intros HD HR. destruct (iter_rows_shaped b KPlaylistTreeNode d HD) as [_ HS]. specialize (HS rows HR). rewrite Forall_forall in HS.
  destruct (all_some_map node_of_row rows) as (ns & EN & F); [intros r IR; destruct (HS r IR); now apply node_of_shaped|].
  exists ns. split; [easy|]. intro depth. unfold get_playlists. now rewrite HR, EN.
Qed.
Lemma get_playlists_failed b d : (forall rows, snd (iter_rows b KPlaylistTreeNode d) <> Some (DOk rows)) -> exists r,
  snd (iter_rows b KPlaylistTreeNode d) = Some r /\ forall depth, get_playlists b depth d = Some (match r with DErr e => Fail (PDb e) | _ => Crash end).
Proof.
  intro H. unfold get_playlists. pose proof (iter_rows_total b KPlaylistTreeNode d) as T. destruct (snd (iter_rows b KPlaylistTreeNode d)) as [[rows|e|]|]; try easy.
  - now destruct (H rows).
  - now exists (DErr e).
  - now exists DPanic.
Qed.
