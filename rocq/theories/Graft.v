(** * A further row in the playlist tree *)
From Coq Require Import NArith ZArith List Bool Lia.
From Coq Require Import ZifyBool ZifyNat ZifyN.
From Verif Require Import Base BaseFacts Str Schema Rows Page Db RowShape Setting Device DeviceFacts DeviceTree Cli CliFacts.
Import ListNotations.
Open Scope N_scope.

(** ** Specification *)

(** [ts'] are the children of the folder [id] after [x] was added to every folder with id [p], [ts] those before.  All else is as before. *)
Inductive gained (p : N) (x : pnode) : N -> list pnode -> list pnode -> Prop :=
| gained_here ts1 ts1' ts2 ts2' : Forall2 (same_but p x) ts1 ts1' -> Forall2 (same_but p x) ts2 ts2' -> gained p x p (ts1 ++ ts2) (ts1' ++ x :: ts2')
| gained_below id ts ts' : id <> p -> Forall2 (same_but p x) ts ts' -> gained p x id ts ts'
with same_but (p : N) (x : pnode) : pnode -> pnode -> Prop :=
| same_playlist i s : same_but p x (PPlaylist i s) (PPlaylist i s)
| same_folder i s ch ch' : gained p x i ch ch' -> same_but p x (PFolder i s ch) (PFolder i s ch').

(** The folders of a tree: the names from the top, the last is its own, and its id. *)
Fixpoint folders (above : list (list N)) (t : pnode) : list (list (list N) * N) :=
  match t with
  | PFolder i name ch => (above ++ [name], i) :: flat_map (folders (above ++ [name])) ch
  | PPlaylist _ _ => []
  end.
(** The root counts as the folder with id 0. *)
Definition all_folders (ts : list pnode) : list (list (list N) * N) := ([], 0) :: flat_map (folders []) ts.

(** The second list is the first one with some elements in between that have [P]. *)
Inductive woven {A} (P : A -> Prop) : list A -> list A -> Prop :=
| woven_nil : woven P [] []
| woven_old x l l' : woven P l l' -> woven P (x :: l) (x :: l')
| woven_new x l l' : P x -> woven P l l' -> woven P l (x :: l').

(** ** Lists *)
Lemma woven_app {A} (P : A -> Prop) l1 l1' l2 l2' : woven P l1 l1' -> woven P l2 l2' -> woven P (l1 ++ l2) (l1' ++ l2').
Proof. induction 1 as [|x l l' _ IH|x l l' HP _ IH]; intro H; [easy| |]; cbn [app]; [apply woven_old|apply woven_new]; auto. Qed.
Lemma woven_in {A} (P : A -> Prop) l l' x : woven P l l' -> In x l -> In x l'.
Proof. induction 1 as [|y l l' _ IH|y l l' HP _ IH]; intro H; [easy| |right; auto]. destruct H as [->|H]; [now left|right; auto]. Qed.
Lemma woven_out {A} (P : A -> Prop) l l' x : woven P l l' -> In x l' -> In x l \/ P x.
Proof.
  induction 1 as [|y l l' _ IH|y l l' HP _ IH]; intro H; [easy| |].
  - destruct H as [->|H]; [left; now left|]. destruct (IH H); [left; now right|now right].
  - destruct H as [->|H]; [now right|auto].
Qed.
Lemma woven_nodup {A B} (f : A -> B) (P : A -> Prop) l l' : woven P l l' -> NoDup (map f l') -> NoDup (map f l).
Proof.
  induction 1 as [|y l l' W IH|y l l' HP _ IH]; intro H; [constructor| |]; cbn [map] in H; inversion H as [|? ? H1 H2]; subst; [|auto].
  cbn [map]. constructor; [|auto]. intro I. apply in_map_iff in I as (z & E & I). apply H1. rewrite <- E. apply in_map. now apply (woven_in P l l').
Qed.

(** ** The tree of the rows with one more *)
Definition leaf_ok (ns : list node) (n : node) (s : list N) (x : pnode) (e : nat) : Prop :=
  decodes n s /\ ((nd_folder n = false /\ x = PPlaylist (nd_id n) s /\ e = O) \/
                  (nd_folder n = true /\ x = PFolder (nd_id n) s [] /\ e = 1%nat /\ nd_parent n <> nd_id n /\ Forall (fun m => nd_parent m <> nd_id n) ns)).
Lemma kids_insert ns1 n ns2 id : kids (ns1 ++ n :: ns2) id = kids ns1 id ++ (if nd_parent n =? id then [n] else []) ++ kids ns2 id.
Proof. unfold kids. rewrite filter_app. cbn [filter]. now destruct (nd_parent n =? id). Qed.
Lemma kids_app ns1 ns2 id : kids (ns1 ++ ns2) id = kids ns1 id ++ kids ns2 id.
Proof. apply filter_app. Qed.
Lemma kids_none ns id : Forall (fun m => nd_parent m <> id) ns -> kids ns id = [].
Proof. induction 1 as [|m ns H _ IH]; [easy|]. unfold kids in *. cbn [filter]. destruct (N.eqb_spec (nd_parent m) id); easy. Qed.
Lemma collect_done_iff {A B} (f : A -> option (outcome B)) l ys : collect_map f l = Some (Done ys) <-> Forall2 (fun x y => f x = Some (Done y)) l ys.
Proof.
  split; [apply collect_map_done|]. induction 1 as [|x y l ys E _ IH]; [easy|]. cbn [collect_map]. now rewrite E, IH.
Qed.
Lemma forall2_step {A B C} (R : A -> B -> Prop) (S : A -> C -> Prop) (T : B -> C -> Prop) l l' : (forall x y, R x y -> exists z, S x z /\ T y z) -> Forall2 R l l' -> exists m, Forall2 S l m /\ Forall2 T l' m.
Proof.
  intros H F. induction F as [|x y l l' E _ (m & IH1 & IH2)]; [exists []; now split|]. destruct (H x y E) as (z & H1 & H2). exists (z :: m). split; now constructor.
Qed.
Lemma child_gained ns1 n ns2 s x e : leaf_ok (ns1 ++ ns2) n s x e -> forall d id ts, child_nodes d (by_parent (ns1 ++ ns2)) id = Some (Done ts) ->
  exists ts', child_nodes (e + d) (by_parent (ns1 ++ n :: ns2)) id = Some (Done ts') /\ gained (nd_parent n) x id ts ts'.
Proof.
  intros [HD HL]. induction d as [|d IH]; intros id ts H; [easy|]. replace (e + S d)%nat with (S (e + d)) by lia. cbn [child_nodes] in *. rewrite by_parent_get in *. rewrite kids_app in H. rewrite kids_insert.
  apply collect_done_iff in H. apply Forall2_app_inv_l in H as (t1 & t2 & F1 & F2 & ->).
  match goal with |- context [collect_map ?g _] => set (f' := g) end.
  assert (forall l us, Forall2 (fun y t => match dstr_into_string (nd_name y) with
     | inl s => if nd_folder y then match child_nodes d (by_parent (ns1 ++ ns2)) (nd_id y) with Some (Done ch) => Some (Done (PFolder (nd_id y) s ch)) | Some (Fail e) => Some (Fail e) | Some Crash => Some Crash | None => None end
                else Some (Done (PPlaylist (nd_id y) s))
     | inr _ => Some (Fail PEncoding) end = Some (Done t)) l us -> exists us', Forall2 (fun y t => f' y = Some (Done t)) l us' /\ Forall2 (same_but (nd_parent n) x) us us') as K.
  { intros l us F. refine (forall2_step _ _ _ _ _ _ F). intros y t E. unfold f'. destruct (dstr_into_string (nd_name y)) as [sy|]; [|easy]. destruct (nd_folder y); [|injection E as <-; eexists; split; [reflexivity|constructor]].
    destruct (child_nodes d (by_parent (ns1 ++ ns2)) (nd_id y)) as [[ch|?|]|] eqn:EC; try easy. injection E as <-. destruct (IH _ _ EC) as (ch' & EC' & HG). rewrite EC'. eexists. split; [reflexivity|]. now constructor. }
  apply K in F1 as (t1' & F1 & S1). apply K in F2 as (t2' & F2 & S2).
  destruct (N.eqb_spec (nd_parent n) id) as [E|NE].
  - exists (t1' ++ x :: t2'). split; [|subst id; now constructor]. apply collect_done_iff. apply Forall2_app; [exact F1|]. constructor; [|exact F2].
    unfold f'. unfold decodes in HD. rewrite HD. destruct HL as [(FN & -> & _)|(FN & -> & -> & NP & NK)]; rewrite FN; [easy|]. cbn [Nat.add child_nodes]. rewrite by_parent_get.
    rewrite kids_none; [reflexivity|]. apply Forall_app in NK as [K1 K2]. apply Forall_app. split; [exact K1|]. constructor; [exact NP|exact K2].
  - exists (t1' ++ t2'). split; [|apply gained_below; [congruence|now apply Forall2_app]]. apply collect_done_iff. cbn [app]. now apply Forall2_app.
Qed.

(** ** The playlists and folders of such a tree *)
Fixpoint pnode_size (t : pnode) : nat := match t with PFolder _ _ ch => S (fold_right (fun c n => pnode_size c + n)%nat O ch) | PPlaylist _ _ => 1%nat end.
Lemma woven_impl {A} (P Q : A -> Prop) l l' : (forall x, P x -> Q x) -> woven P l l' -> woven Q l l'.
Proof. intro H. induction 1; [constructor|now apply woven_old|apply woven_new; auto]. Qed.
(** The children of a folder [above] with id [id]. *)
Lemma gained_playlists_sz p i s m : forall id ts ts' above, (fold_right (fun c n => pnode_size c + n)%nat O ts < m)%nat -> gained p (PPlaylist i s) id ts ts' ->
  woven (fun y => exists a, In (a, p) ((above, id) :: flat_map (folders above) ts) /\ y = (a, i, s)) (flat_map (playlists above) ts) (flat_map (playlists above) ts') /\
  forall a, In (a, p) ((above, id) :: flat_map (folders above) ts) -> In (a, i, s) (flat_map (playlists above) ts').
Proof.
  induction m as [|m IH]; intros id ts ts' above HM HG; [lia|].
  assert (forall us us', Forall2 (same_but p (PPlaylist i s)) us us' -> (fold_right (fun c n => pnode_size c + n)%nat O us < S m)%nat ->
    woven (fun y => exists a, In (a, p) (flat_map (folders above) us) /\ y = (a, i, s)) (flat_map (playlists above) us) (flat_map (playlists above) us') /\
    forall a, In (a, p) (flat_map (folders above) us) -> In (a, i, s) (flat_map (playlists above) us')) as K.
  { clear id ts ts' HM HG. intros us us' F. induction F as [|t t' us us' E F IHF]; intro L; [split; [constructor|intros ? []]|]. cbn [fold_right] in L. destruct IHF as [W1 W2]; [lia|].
    inversion E as [i0 s0|i0 s0 ch ch' G]; subst; cbn [flat_map playlists folders].
    - cbn [app]. split; [now apply woven_old|]. intros a I. right. auto.
    - cbn [pnode_size] in L. destruct (IH i0 ch ch' (above ++ [s0]) ltac:(lia) G) as [V1 V2]. split.
      + apply woven_app.
        * refine (woven_impl _ _ _ _ _ V1). intros y (a & I & ->). exists a. split; [|easy]. rewrite in_app_iff. now left.
        * refine (woven_impl _ _ _ _ _ W1). intros y (a & I & ->). exists a. split; [|easy]. rewrite in_app_iff. now right.
      + intros a I. rewrite in_app_iff in I. rewrite in_app_iff. destruct I as [I|I]; [left; auto|right; auto]. }
  inversion HG as [ts1 ts1' ts2 ts2' F1 F2|id0 us us' NE F]; subst.
  - assert (fold_right (fun c n => pnode_size c + n)%nat O (ts1 ++ ts2) = fold_right (fun c n => pnode_size c + n)%nat O ts1 + fold_right (fun c n => pnode_size c + n)%nat O ts2)%nat as ES.
    { clear. induction ts1 as [|y l IH]; [easy|]. cbn [app fold_right]. lia. }
    destruct (K _ _ F1) as [V1 V2]; [lia|]. destruct (K _ _ F2) as [W1 W2]; [lia|]. rewrite !flat_map_app. cbn [flat_map playlists app]. split.
    + apply woven_app; [|apply woven_new; [exists above; split; [now left|easy]|]].
      * refine (woven_impl _ _ _ _ _ V1). intros y (a & I & ->). exists a. split; [|easy]. right. rewrite in_app_iff. now left.
      * refine (woven_impl _ _ _ _ _ W1). intros y (a & I & ->). exists a. split; [|easy]. right. rewrite in_app_iff. now right.
    + intros a I. rewrite in_app_iff. destruct I as [I|I]; [injection I as <-; right; now left|]. rewrite in_app_iff in I. destruct I as [I|I]; [left; auto|right; right; auto].
  - destruct (K _ _ F HM) as [V1 V2]. split.
    + refine (woven_impl _ _ _ _ _ V1). intros y (a & I & ->). exists a. split; [|easy]. now right.
    + intros a [I|I]; [now injection I as _ ->|auto].
Qed.
Lemma gained_playlists p i s ts ts' : gained p (PPlaylist i s) 0 ts ts' ->
  woven (fun y => exists a, In (a, p) (all_folders ts) /\ y = (a, i, s)) (flat_map (playlists []) ts) (flat_map (playlists []) ts') /\
  forall a, In (a, p) (all_folders ts) -> In (a, i, s) (flat_map (playlists []) ts').
Proof. intro H. apply (gained_playlists_sz p i s (S (fold_right (fun c n => pnode_size c + n)%nat O ts)) 0 ts ts' []); [lia|exact H]. Qed.
Lemma gained_same_sz p i s m : forall id ts ts' above, (fold_right (fun c n => pnode_size c + n)%nat O ts < m)%nat -> gained p (PFolder i s []) id ts ts' ->
  flat_map (playlists above) ts' = flat_map (playlists above) ts.
Proof.
  induction m as [|m IH]; intros id ts ts' above HM HG; [lia|].
  assert (forall us us', Forall2 (same_but p (PFolder i s [])) us us' -> (fold_right (fun c n => pnode_size c + n)%nat O us < S m)%nat -> flat_map (playlists above) us' = flat_map (playlists above) us) as K.
  { clear id ts ts' HM HG. intros us us' F. induction F as [|t t' us us' E F IHF]; intro L; [easy|]. cbn [fold_right] in L. cbn [flat_map]. rewrite IHF by lia. f_equal.
    inversion E as [i0 s0|i0 s0 ch ch' G]; subst; [easy|]. cbn [playlists]. cbn [pnode_size] in L. apply (IH i0); [lia|easy]. }
  inversion HG as [ts1 ts1' ts2 ts2' F1 F2|id0 us us' NE F]; subst; [|now apply K].
  assert (fold_right (fun c n => pnode_size c + n)%nat O (ts1 ++ ts2) = fold_right (fun c n => pnode_size c + n)%nat O ts1 + fold_right (fun c n => pnode_size c + n)%nat O ts2)%nat as ES.
  { clear. induction ts1 as [|y l IH]; [easy|]. cbn [app fold_right]. lia. }
  rewrite !flat_map_app. cbn [flat_map playlists app]. rewrite (K _ _ F1), (K _ _ F2) by lia. reflexivity.
Qed.
Lemma gained_same p i s ts ts' : gained p (PFolder i s []) 0 ts ts' -> flat_map (playlists []) ts' = flat_map (playlists []) ts.
Proof. intro H. apply (gained_same_sz p i s (S (fold_right (fun c n => pnode_size c + n)%nat O ts)) 0 ts ts' []); [lia|exact H]. Qed.
Lemma gained_safe_sz p x m : forall id ts ts', (fold_right (fun c n => pnode_size c + n)%nat O ts < m)%nat -> gained p x id ts ts' -> Forall safe ts' -> Forall safe ts.
Proof.
  induction m as [|m IH]; intros id ts ts' HM HG HS; [lia|].
  assert (forall us us', Forall2 (same_but p x) us us' -> (fold_right (fun c n => pnode_size c + n)%nat O us < S m)%nat -> Forall safe us' -> Forall safe us) as K.
  { clear id ts ts' HM HG HS. intros us us' F. induction F as [|t t' us us' E F IHF]; intros L HS; [easy|]. cbn [fold_right] in L. inversion HS as [|? ? H1 H2]; subst. constructor; [|apply IHF; [lia|easy]].
    inversion E as [i0 s0|i0 s0 ch ch' G]; subst; [easy|]. cbn [safe] in *. destruct H1 as (A1 & A2 & A3). split; [easy|]. split; [easy|]. apply safe_all. apply safe_all in A3. cbn [pnode_size] in L. apply (IH i0 ch ch'); [lia|easy|easy]. }
  inversion HG as [ts1 ts1' ts2 ts2' F1 F2|id0 us us' NE F]; subst; [|now apply (K ts ts')].
  assert (fold_right (fun c n => pnode_size c + n)%nat O (ts1 ++ ts2) = fold_right (fun c n => pnode_size c + n)%nat O ts1 + fold_right (fun c n => pnode_size c + n)%nat O ts2)%nat as ES.
  { clear. induction ts1 as [|y l IH]; [easy|]. cbn [app fold_right]. lia. }
  apply Forall_app in HS as [H1 H2]. inversion H2 as [|? ? H3 H4]; subst. apply Forall_app. split; [apply (K _ _ F1); [lia|easy]|apply (K _ _ F2); [lia|easy]].
Qed.
Lemma gained_safe p x ts ts' : gained p x 0 ts ts' -> Forall safe ts' -> Forall safe ts.
Proof. intro H. apply (gained_safe_sz p x (S (fold_right (fun c n => pnode_size c + n)%nat O ts)) 0); [lia|exact H]. Qed.
