(** * Facts about the XML format *)
From Coq Require Import NArith ZArith List Bool Lia String Ascii Permutation.
From Coq Require Import Decimal DecimalN DecimalZ DecimalFacts.
From Coq Require Import ZifyBool ZifyNat ZifyN.
From Verif Require Import Xml.
Import ListNotations.
Local Close Scope string_scope.
Open Scope N_scope.

(** ** Numbers *)
Lemma digits_show u : digits (show_uint u) = Some u.
Proof. induction u as [|u IH|u IH|u IH|u IH|u IH|u IH|u IH|u IH|u IH|u IH]; cbn [show_uint digits]; try rewrite IH; reflexivity. Qed.
Lemma to_uint_nonnil n : N.to_uint n <> Nil.
Proof. intro H. pose proof (DecimalN.Unsigned.of_to n) as E. rewrite H in E. cbn in E. subst n. discriminate. Qed.
Lemma show_N_first n : exists c r, show_N n = c :: r /\ 48 <= c <= 57.
Proof. unfold show_N. pose proof (to_uint_nonnil n). destruct (N.to_uint n); [easy|..]; (eexists _, _; split; [reflexivity|lia]). Qed.
Lemma magnitude_show n : magnitude (show_N n) = Some n.
Proof.
  unfold magnitude. destruct (show_N_first n) as (c & r & E & _). rewrite E, <- E. unfold show_N. rewrite digits_show. cbn [option_map]. now rewrite DecimalN.Unsigned.of_to.
Qed.
Lemma no_sign {A} c r (x y z : A) : 48 <= c <= 57 -> (match c :: r with 45 :: _ => x | 43 :: _ => y | _ => z end) = z.
Proof. intro H. destruct c as [|c]; [easy|]. do 6 (destruct c as [c|c|]; try reflexivity; try lia). Qed.
Lemma no_plus {A} c r (y z : A) : 48 <= c <= 57 -> (match c :: r with 43 :: _ => y | _ => z end) = z.
Proof. intro H. destruct c as [|c]; [easy|]. do 6 (destruct c as [c|c|]; try reflexivity; try lia). Qed.
Lemma read_usize_show n : n < 2 ^ 64 -> read_usize (show_N n) = Some n.
Proof.
  intro H. unfold read_usize. destruct (show_N_first n) as (c & r & E & C).
  replace (match show_N n with 43 :: r0 => r0 | _ => show_N n end) with (show_N n) by (rewrite E; destruct c as [|c']; [easy|]; do 6 (destruct c' as [c'|c'|]; try reflexivity; try lia)).
  rewrite magnitude_show. now replace (n <? 2 ^ 64) with true by lia.
Qed.
Lemma read_int_show bits z : (- 2 ^ (bits - 1) <= z < 2 ^ (bits - 1))%Z -> read_int bits (show_Z z) = Some z.
Proof.
  intro H. unfold read_int, show_Z. destruct (Z.ltb_spec z 0) as [L|L].
  - rewrite magnitude_show. cbn [option_map]. rewrite Z2N.id by lia. replace (- - z)%Z with z by lia.
    now replace (_ && _)%bool with true by (symmetry; apply andb_true_iff; split; [apply Z.leb_le|apply Z.ltb_lt]; lia).
  - replace (match show_N (Z.to_N z) with 45 :: r => option_map (fun n => (- Z.of_N n)%Z) (magnitude r) | 43 :: r => option_map Z.of_N (magnitude r) | _ => option_map Z.of_N (magnitude (show_N (Z.to_N z))) end)
      with (option_map Z.of_N (magnitude (show_N (Z.to_N z)))).
    + rewrite magnitude_show. cbn [option_map]. rewrite Z2N.id by lia.
      now replace (_ && _)%bool with true by (symmetry; apply andb_true_iff; split; [apply Z.leb_le|apply Z.ltb_lt]; lia).
    + destruct (show_N_first (Z.to_N z)) as (c & r & E & C). rewrite E. destruct c as [|c']; [easy|]; do 6 (destruct c' as [c'|c'|]; try reflexivity; try lia).
Qed.

(** ** Runs *)
Lemma runs_same {C} (tag : C -> string) t cs : cs <> [] -> Forall (fun c => tag c = t) cs -> runs tag cs = [(t, cs)].
Proof.
  intros NE F. induction F as [|c cs E F IH]; [easy|]. cbn [runs]. destruct cs as [|d cs]; [now rewrite <- E|]. rewrite IH by easy. rewrite E. now rewrite String.eqb_refl.
Qed.
Lemma the_runs_app {C} tag (a b : list (item C)) : the_runs tag (a ++ b) = the_runs tag a ++ the_runs tag b.
Proof. induction a as [|[k v|t cs] a IH]; [easy|easy|]. rewrite <- app_comm_cons. cbn [the_runs]. rewrite IH. now destruct (String.eqb t tag). Qed.
Lemma the_runs_attrs {C} tag attrs : the_runs tag (map (fun a : string * text => @IAttr C (fst a) (snd a)) attrs) = [].
Proof. induction attrs; easy. Qed.
Lemma vec_attrs {C} tag attrs (l : list (item C)) : vec_field tag (map (fun a => IAttr (fst a) (snd a)) attrs ++ l) = vec_field tag l.
Proof. unfold vec_field. now rewrite the_runs_app, the_runs_attrs. Qed.
Lemma vec_same {C} (tag : C -> string) t attrs cs : cs <> [] -> Forall (fun c => tag c = t) cs -> vec_field t (items tag attrs cs) = XOk cs.
Proof. intros NE F. unfold items. rewrite vec_attrs, (runs_same tag t) by easy. unfold vec_field. cbn [map the_runs fst snd]. now rewrite String.eqb_refl. Qed.
Lemma vec_none {C} (tag : C -> string) t attrs : vec_field t (items tag attrs []) = XErr (XMissing t).
Proof. unfold items. now rewrite vec_attrs. Qed.
Lemma xall_ok {A B} (f : A -> xres B) l ys : xall f l = XOk ys <-> Forall2 (fun x y => f x = XOk y) l ys.
Proof.
  revert ys. induction l as [|x l IH]; intro ys; cbn [xall].
  - split; [intros [= <-]; constructor|intro H; inversion H; easy].
  - split.
    + destruct (f x) eqn:E; [|easy]. destruct (xall f l) as [zs|]; [|easy]. intros [= <-]. constructor; [easy|]. now apply IH.
    + intro H. inversion H as [|? y ? zs E F]; subst. rewrite E. apply IH in F. now rewrite F.
Qed.

(** ** Reading a node whose attributes are all known and readable: what matters are the values, not the order *)
Definition known (a : string * text) : Prop :=
  (fst a = "Name" \/ fst a = "Type" \/ fst a = "KeyType" \/ ((fst a = "Count" \/ fst a = "Entries") /\ exists n, read_usize (snd a) = Some n))%string.
Definition or_else {A} (a b : option A) : option A := match a with Some _ => a | None => b end.
Definition num (k : string) (attrs : list (string * text)) : option N := match attr k attrs with Some v => read_usize v | None => None end.
Definition merged (attrs : list (string * text)) (s : vars) : vars :=
  mk_vars (or_else (attr "Type" attrs) (v_type s)) (or_else (attr "Name" attrs) (v_name s)) (or_else (num "Count" attrs) (v_count s))
          (or_else (attr "KeyType" attrs) (v_key_type s)) (or_else (num "Entries" attrs) (v_entries s)).
(** What follows when all attributes are read; [l]: the runs *)
Definition conclude (s : vars) (l : list (item child)) : xres xnode :=
  match v_type s with
  | None => visit l s
  | Some t =>
    if text_eqb t [48] then
      match v_name s, v_count s with
      | Some n, Some _ =>
        match vec_field "NODE" l with
        | XErr e => XErr e
        | XOk cs => match xall snd cs with XOk nodes => XOk (XFolder n nodes) | XErr e => XErr e end
        end
      | _, _ => visit l s
      end
    else if text_eqb t [49] then
      match v_name s, v_entries s, v_key_type s with
      | Some n, Some _, Some kt =>
        match vec_field "TRACK" l with
        | XErr e => XErr e
        | XOk cs => match xall (fun c => read_entry (fst c)) cs with XOk tracks => XOk (XPlaylist n kt tracks) | XErr e => XErr e end
        end
      | _, _, _ => visit l s
      end
    else XErr (XUnknownVariant t)
  end.
Definition is_set {A} (o : option A) : bool := match o with Some _ => true | None => false end.
Definition has_var (k : string) (s : vars) : bool :=
  if String.eqb k "Name" then is_set (v_name s) else if String.eqb k "Type" then is_set (v_type s) else if String.eqb k "Count" then is_set (v_count s)
  else if String.eqb k "KeyType" then is_set (v_key_type s) else if String.eqb k "Entries" then is_set (v_entries s) else false.
Lemma set_var_known a s : known a -> set_var (fst a) (snd a) s = XOk (merged [a] s).
Proof.
  destruct a as [k v]. intros [E|[E|[E|[[E|E] [n R]]]]]; cbn [fst snd] in *; subst k; unfold set_var, merged, num; cbn; try rewrite R; reflexivity.
Qed.
Lemma or_else_assoc {A} (a b c : option A) : or_else a (or_else b c) = or_else (or_else a b) c.
Proof. now destruct a. Qed.
Lemma attr_notin k l : ~ In k (map fst l) -> attr k l = None.
Proof. induction l as [|[k' v] l IH]; cbn [attr map fst In]; [easy|]. intro H. destruct (String.eqb_spec k' k); [tauto|]. tauto. Qed.
Lemma attr_in k l v : attr k l = Some v -> In (k, v) l.
Proof. induction l as [|[k' w] l IH]; cbn [attr]; [easy|]. destruct (String.eqb_spec k' k) as [->|]; [intros [= <-]; now left|right; auto]. Qed.
Lemma num_notin k l : ~ In k (map fst l) -> num k l = None.
Proof. intro H. unfold num. now rewrite attr_notin. Qed.
Lemma num_cons k a l : ~ In (fst a) (map fst l) -> num k (a :: l) = or_else (num k l) (num k [a]).
Proof.
  destruct a as [ka v]. cbn [fst]. intro H. unfold num. cbn [attr]. destruct (String.eqb_spec ka k) as [->|]; [now rewrite attr_notin|].
  destruct (attr k l) as [w|]; [|easy]. now destruct (read_usize w).
Qed.
Lemma attr_cons k a l : ~ In (fst a) (map fst l) -> attr k (a :: l) = or_else (attr k l) (attr k [a]).
Proof.
  destruct a as [ka v]. cbn [fst]. intro H. cbn [attr]. destruct (String.eqb_spec ka k) as [->|]; [now rewrite attr_notin|]. now destruct (attr k l).
Qed.
Lemma merged_cons a l s : ~ In (fst a) (map fst l) -> merged (a :: l) s = merged l (merged [a] s).
Proof.
  intro H. unfold merged. cbn [v_type v_name v_count v_key_type v_entries]. rewrite !or_else_assoc. 
  now rewrite (num_cons "Count" a l H), (num_cons "Entries" a l H), (attr_cons "Type" a l H), (attr_cons "Name" a l H), (attr_cons "KeyType" a l H).
Qed.
(** If what is needed is there, further attributes change nothing. *)
Definition complete (s : vars) : Prop :=
  exists t, v_type s = Some t /\
    (text_eqb t [48] = true -> v_name s <> None /\ v_count s <> None) /\
    (text_eqb t [48] = false -> text_eqb t [49] = true -> v_name s <> None /\ v_entries s <> None /\ v_key_type s <> None).
Definition fresh (attrs : list (string * text)) (s : vars) : Prop := forall a, In a attrs -> has_var (fst a) s = false.
Lemma fresh_attr attrs s k : fresh attrs s -> has_var k s = true -> attr k attrs = None.
Proof. intros F H. apply attr_notin. intro I. apply in_map_iff in I as (a & <- & I). now rewrite (F a I) in H. Qed.
Lemma conclude_complete attrs s l : complete s -> fresh attrs s ->
  conclude s (map (fun a => IAttr (fst a) (snd a)) attrs ++ l) = conclude (merged attrs s) l.
Proof.
  intros (t & ET & C0 & C1) F. unfold conclude.
  assert (v_type (merged attrs s) = Some t) as ->.
  { cbn. rewrite (fresh_attr _ _ _ F); [easy|]. cbn. now rewrite ET. }
  rewrite ET. destruct (text_eqb t [48]) eqn:E0.
  - destruct (C0 eq_refl) as [HN HC]. cbn [merged v_name v_count]. unfold num. rewrite (fresh_attr _ _ "Name" F), (fresh_attr _ _ "Count" F) by (cbn; now destruct (v_name s), (v_count s)).
    cbn [or_else]. destruct (v_name s), (v_count s); try easy. now rewrite vec_attrs.
  - destruct (text_eqb t [49]) eqn:E1; [|easy]. destruct (C1 eq_refl eq_refl) as (HN & HE & HK). cbn [merged v_name v_entries v_key_type]. unfold num.
    rewrite (fresh_attr _ _ "Name" F), (fresh_attr _ _ "Entries" F), (fresh_attr _ _ "KeyType" F) by (cbn; now destruct (v_name s), (v_entries s), (v_key_type s)).
    cbn [or_else]. destruct (v_name s), (v_entries s), (v_key_type s); try easy. now rewrite vec_attrs.
Qed.
Lemma complete_dec s : complete s \/ ~ complete s.
Proof.
  unfold complete. destruct (v_type s) as [t|]; [|right; now intros (t & E & _)]. destruct (text_eqb t [48]) eqn:E0.
  - destruct (v_name s), (v_count s); try (right; intros (t' & [= <-] & H & _); now destruct (H E0)). left. exists t. rewrite E0. repeat split; easy.
  - destruct (text_eqb t [49]) eqn:E1.
    + destruct (v_name s), (v_entries s), (v_key_type s); try (right; intros (t' & [= <-] & _ & H); destruct (H E0 E1) as (H1 & H2 & H3); easy). left. exists t. rewrite E0. repeat split; easy.
    + left. exists t. rewrite E0, E1. repeat split; easy.
Qed.
Lemma visit_step k v l s s' : set_var k v s = XOk s' -> 
  (complete s' -> visit (IAttr k v :: l) s = conclude s' l) /\ (~ complete s' -> visit (IAttr k v :: l) s = visit l s').
Proof.
  intro E. cbn [visit]. rewrite E. split; intro C.
  - destruct C as (t & ET & C0 & C1). unfold conclude. rewrite ET. reflexivity.
  - destruct (v_type s') as [t|] eqn:ET; [|easy]. destruct (text_eqb t [48]) eqn:E0.
    + destruct (v_name s') eqn:EN, (v_count s') eqn:EC; try easy. destruct C. exists t. rewrite E0, EN, EC. repeat split; easy.
    + destruct (text_eqb t [49]) eqn:E1.
      * destruct (v_name s') eqn:EN, (v_entries s') eqn:EC, (v_key_type s') eqn:EK; try easy. destruct C. exists t. rewrite E0, EN, EC, EK. repeat split; easy.
      * destruct C. exists t. rewrite E0, E1. repeat split; easy.
Qed.
Lemma has_merged k a s : known a -> has_var k (merged [a] s) = (has_var k s || String.eqb k (fst a))%bool.
Proof.
  destruct a as [ka v]. intros [E|[E|[E|[[E|E] [n R]]]]]; cbn [fst snd] in *; subst ka; unfold has_var, merged, num; cbn; rewrite ?R;
  destruct (String.eqb_spec k "Name") as [->|]; cbn; try (now rewrite ?orb_true_r, ?orb_false_r);
  destruct (String.eqb_spec k "Type") as [->|]; cbn; try (now rewrite ?orb_true_r, ?orb_false_r);
  destruct (String.eqb_spec k "Count") as [->|]; cbn; rewrite ?R; try (now rewrite ?orb_true_r, ?orb_false_r);
  destruct (String.eqb_spec k "KeyType") as [->|]; cbn; try (now rewrite ?orb_true_r, ?orb_false_r);
  destruct (String.eqb_spec k "Entries") as [->|]; cbn; rewrite ?R; try (now rewrite ?orb_true_r, ?orb_false_r);
  now rewrite ?(proj2 (String.eqb_neq _ _)) by easy.
Qed.
Lemma visit_attrs attrs l : Forall known attrs -> NoDup (map fst attrs) -> (forall s, ~ complete s -> visit l s = conclude s l) ->
  forall s, fresh attrs s -> ~ complete s -> visit (map (fun a => IAttr (fst a) (snd a)) attrs ++ l) s = conclude (merged attrs s) l.
Proof.
  intros K ND HL. induction K as [|a attrs KA K IH]; intros s F NC.
  - cbn [map app]. replace (merged [] s) with s by now destruct s. now apply HL.
  - cbn [map] in ND. apply NoDup_cons_iff in ND as [NI ND]. cbn [map]. rewrite <- app_comm_cons. destruct (visit_step _ _ (map (fun a => IAttr (fst a) (snd a)) attrs ++ l) _ _ (set_var_known a s KA)) as [VC VN]. rewrite (merged_cons a attrs s NI).
    assert (fresh attrs (merged [a] s)) as F'.
    { intros b I. rewrite has_merged by easy. apply orb_false_iff. split; [apply F; now right|]. apply String.eqb_neq. intro E. apply NI. rewrite <- E. now apply in_map. }
    destruct (complete_dec (merged [a] s)) as [C|C].
    + rewrite VC by easy. now apply conclude_complete.
    + rewrite VN by easy. now apply IH.
Qed.

Definition run_items (cs : list elem) : list (item child) :=
  map (fun r => IRun (fst r) (snd r)) (runs child_tag (map (fun c => (c, read_node c)) cs)).
Lemma conclude_incomplete s l : ~ complete s -> conclude s l = visit l s.
Proof.
  intro C. unfold conclude. destruct (v_type s) as [t|] eqn:ET; [|easy]. destruct (text_eqb t [48]) eqn:E0.
  - destruct (v_name s) eqn:EN, (v_count s) eqn:EC; try easy. destruct C. exists t. rewrite E0, EN, EC. repeat split; easy.
  - destruct (text_eqb t [49]) eqn:E1.
    + destruct (v_name s) eqn:EN, (v_entries s) eqn:EC, (v_key_type s) eqn:EK; try easy. destruct C. exists t. rewrite E0, EN, EC, EK. repeat split; easy.
    + destruct C. exists t. rewrite E0, E1. repeat split; easy.
Qed.
Lemma read_known tag attrs cs : Forall known attrs -> NoDup (map fst attrs) -> read_node (El tag attrs cs) = conclude (merged attrs no_vars) (run_items cs).
Proof.
  intros K ND. cbn [read_node]. unfold items. apply visit_attrs; [easy|easy| | |].
  - intros s C. symmetry. now apply conclude_incomplete.
  - intros a I. unfold has_var. now repeat destruct (String.eqb _ _).
  - now intros (t & E & _).
Qed.

Lemma attr_perm k l l' : NoDup (map fst l) -> Permutation l l' -> attr k l = attr k l'.
Proof.
  intros ND P. assert (NoDup (map fst l')) as ND' by (eapply Permutation_NoDup; [|exact ND]; now apply Permutation_map).
  assert (forall m v, NoDup (map fst m) -> In (k, v) m -> attr k m = Some v) as G.
  { clear. induction m as [|[k' w] m IH]; intros v ND I; [easy|]. cbn [map fst] in ND. apply NoDup_cons_iff in ND as [NI ND]. cbn [attr]. destruct I as [[= <- <-]|I]; [now rewrite String.eqb_refl|].
    destruct (String.eqb_spec k' k) as [->|]; [|now apply IH]. destruct NI. apply in_map_iff. now exists (k, v). }
  destruct (attr k l) as [v|] eqn:E.
  - apply attr_in in E. symmetry. apply G; [easy|]. eapply Permutation_in; eauto.
  - destruct (attr k l') as [v|] eqn:E'; [|easy]. apply attr_in in E'. rewrite (G l v) in E; [easy|easy|]. eapply Permutation_in; [symmetry|]; eauto.
Qed.
Lemma read_perm tag tag' attrs attrs' cs : Forall known attrs -> NoDup (map fst attrs) -> Permutation attrs attrs' ->
  read_node (El tag attrs cs) = read_node (El tag' attrs' cs).
Proof.
  intros K ND P. assert (Forall known attrs') as K' by (rewrite <- P; exact K).
  assert (NoDup (map fst attrs')) as ND' by (eapply Permutation_NoDup; [|exact ND]; now apply Permutation_map).
  rewrite !read_known by easy. f_equal. unfold merged, num. now rewrite <- !(attr_perm _ _ _ ND P).
Qed.

(** ** Trees *)
Fixpoint nothing_empty (t : xnode) : Prop :=
  match t with
  | XFolder _ nodes => nodes <> [] /\ fold_right (fun c P => nothing_empty c /\ P) True nodes
  | XPlaylist _ _ tracks => tracks <> []
  end.
Lemma nothing_empty_all ch : fold_right (fun c P => nothing_empty c /\ P) True ch <-> Forall nothing_empty ch.
Proof. induction ch as [|c ch IH]; cbn [fold_right]; [easy|]. rewrite Forall_cons_iff. tauto. Qed.
(** The counts are [usize] and the keys [i32]. *)
Fixpoint fits (t : xnode) : Prop :=
  match t with
  | XFolder _ nodes => N.of_nat (List.length nodes) < 2 ^ 64 /\ fold_right (fun c P => fits c /\ P) True nodes
  | XPlaylist _ _ tracks => N.of_nat (List.length tracks) < 2 ^ 64 /\ Forall (fun z => (- 2 ^ 31 <= z < 2 ^ 31)%Z) tracks
  end.
Lemma fits_all ch : fold_right (fun c P => fits c /\ P) True ch <-> Forall fits ch.
Proof. induction ch as [|c ch IH]; cbn [fold_right]; [easy|]. rewrite Forall_cons_iff. tauto. Qed.
Lemma xnode_ind2 (P : xnode -> Prop) : (forall s ch, Forall P ch -> P (XFolder s ch)) -> (forall s k ts, P (XPlaylist s k ts)) -> forall t, P t.
Proof.
  intros HF HP. fix IH 1. intros [s ch|s k ts]; [|apply HP]. apply HF. induction ch as [|c ch IHc]; constructor; [apply IH|exact IHc].
Qed.

Lemma read_folder tag attrs cs name n : Forall known attrs -> NoDup (map fst attrs) -> attr "Type" attrs = Some [48] -> attr "Name" attrs = Some name ->
  num "Count" attrs = Some n -> read_node (El tag attrs cs) =
  match vec_field "NODE" (run_items cs) with
  | XErr e => XErr e
  | XOk l => match xall snd l with XOk nodes => XOk (XFolder name nodes) | XErr e => XErr e end
  end.
Proof. intros K ND E1 E2 E3. rewrite read_known by easy. unfold conclude, merged. cbn [v_type v_name v_count]. now rewrite E1, E2, E3. Qed.
Lemma read_playlist tag attrs cs name n kt : Forall known attrs -> NoDup (map fst attrs) -> attr "Type" attrs = Some [49] -> attr "Name" attrs = Some name ->
  num "Entries" attrs = Some n -> attr "KeyType" attrs = Some kt -> read_node (El tag attrs cs) =
  match vec_field "TRACK" (run_items cs) with
  | XErr e => XErr e
  | XOk l => match xall (fun c => read_entry (fst c)) l with XOk tracks => XOk (XPlaylist name kt tracks) | XErr e => XErr e end
  end.
Proof. intros K ND E1 E2 E3 E4. rewrite read_known by easy. unfold conclude, merged. cbn [v_type v_name v_entries v_key_type]. now rewrite E1, E2, E3, E4. Qed.

Lemma folder_attrs name n : n < 2 ^ 64 -> let attrs := [("Type", [48]); ("Name", name); ("Count", show_N n)]%string in
  Forall known attrs /\ NoDup (map fst attrs) /\ num "Count" attrs = Some n.
Proof.
  intros H attrs. split; [|split].
  - unfold attrs. repeat apply Forall_cons; try apply Forall_nil; unfold known; cbn [fst snd]; [tauto|tauto|]. right. right. right. split; [now left|]. exists n. now apply read_usize_show.
  - repeat constructor; cbn; intuition discriminate.
  - unfold num. cbn [attr]. cbn. now apply read_usize_show.
Qed.
Lemma playlist_attrs name kt n : n < 2 ^ 64 -> let attrs := [("Type", [49]); ("Name", name); ("Entries", show_N n); ("KeyType", kt)]%string in
  Forall known attrs /\ NoDup (map fst attrs) /\ num "Entries" attrs = Some n.
Proof.
  intros H attrs. split; [|split].
  - unfold attrs. repeat apply Forall_cons; try apply Forall_nil; unfold known; cbn [fst snd]; [tauto|tauto| |tauto]. right. right. right. split; [now right|]. exists n. now apply read_usize_show.
  - repeat constructor; cbn; intuition discriminate.
  - unfold num. cbn [attr]. cbn. now apply read_usize_show.
Qed.
Lemma map_nonempty {A B} (f : A -> B) l : l <> [] -> map f l <> [].
Proof. now destruct l. Qed.
Lemma vec_run_items tag cs : cs <> [] -> Forall (fun c => el_tag c = tag) cs -> vec_field tag (run_items cs) = XOk (map (fun c => (c, read_node c)) cs).
Proof.
  intros NE F. pose proof (vec_same child_tag tag [] (map (fun c => (c, read_node c)) cs)) as V. apply V; [now destruct cs|]. rewrite Forall_map. exact F.
Qed.
Lemma write_node_tag t : el_tag (write_node t) = "NODE"%string.
Proof. now destruct t. Qed.
Lemma entries_read tracks : Forall (fun z => (- 2 ^ 31 <= z < 2 ^ 31)%Z) tracks ->
  xall (fun c : child => read_entry (fst c)) (map (fun c => (c, read_node c)) (map write_entry tracks)) = XOk tracks.
Proof.
  intro F. apply xall_ok. induction F as [|z l H F IH]; cbn [map]; constructor; [|exact IH]. unfold write_entry, read_entry. cbn [fst el_attrs attr]. cbn [String.eqb Ascii.eqb Bool.eqb].
  now rewrite (read_int_show 32).
Qed.
Lemma node_back t : fits t -> nothing_empty t -> read_node (write_node t) = XOk t.
Proof.
  induction t as [name nodes IH|name kt tracks] using xnode_ind2; intros HF HE; cbn [write_node fits nothing_empty] in *.
  - destruct HF as [HL HF]. apply fits_all in HF. destruct HE as [NE HE]. apply nothing_empty_all in HE. destruct (folder_attrs name _ HL) as (K & ND & EC).
    rewrite (read_folder _ _ _ name _ K ND eq_refl eq_refl EC). rewrite vec_run_items; [|now apply map_nonempty|rewrite Forall_map, Forall_forall; intros; apply write_node_tag].
    replace (xall snd (map (fun c => (c, read_node c)) (map write_node nodes))) with (XOk nodes); [reflexivity|]. symmetry. apply xall_ok. clear -IH HF HE.
    induction nodes as [|t nodes IHn]; cbn [map]; [constructor|]. inversion IH; inversion HF; inversion HE; subst. constructor; [cbn [snd]; auto|auto].
  - destruct HF as [HL HF]. destruct (playlist_attrs name kt _ HL) as (K & ND & EC). rewrite (read_playlist _ _ _ name _ kt K ND eq_refl eq_refl EC eq_refl).
    rewrite vec_run_items; [|now apply map_nonempty|rewrite Forall_map, Forall_forall; intros; reflexivity]. rewrite entries_read by exact HF. reflexivity.
Qed.
Lemma node_only t t' : fits t -> read_node (write_node t) = XOk t' -> nothing_empty t.
Proof.
  revert t'. induction t as [name nodes IH|name kt tracks] using xnode_ind2; intros t' HF HR; cbn [write_node fits nothing_empty] in *.
  - destruct HF as [HL HF]. apply fits_all in HF. destruct (folder_attrs name _ HL) as (K & ND & EC).
    rewrite (read_folder _ _ _ name _ K ND eq_refl eq_refl EC) in HR. destruct nodes as [|t0 nodes]; [discriminate HR|]. split; [discriminate|]. apply nothing_empty_all.
    rewrite vec_run_items in HR; [|apply map_nonempty; discriminate|rewrite Forall_map, Forall_forall; intros; apply write_node_tag].
    destruct (xall snd _) as [ys|] eqn:X; [|discriminate HR]. apply xall_ok in X. clear -IH HF X. revert ys X. induction (t0 :: nodes) as [|t l IHl]; intros ys X; constructor.
    + inversion IH; inversion HF; subst. cbn [map] in X. inversion X; subst. cbn [snd] in *. eauto.
    + inversion IH; inversion HF; subst. cbn [map] in X. inversion X; subst. eauto.
  - destruct HF as [HL HF]. destruct (playlist_attrs name kt _ HL) as (K & ND & EC). rewrite (read_playlist _ _ _ name _ kt K ND eq_refl eq_refl EC eq_refl) in HR.
    destruct tracks; [discriminate HR|discriminate].
Qed.
Lemma root_back name nodes : Forall fits nodes -> nodes <> [] -> Forall nothing_empty nodes -> read_root (write_root name nodes) = XOk (name, nodes).
Proof.
  intros HF NE HE. unfold read_root, write_root. cbn [el_attrs el_children attr]. cbn [String.eqb Ascii.eqb Bool.eqb].
  rewrite vec_same; [|now do 2 apply map_nonempty|rewrite !Forall_map, Forall_forall; intros; apply write_node_tag].
  replace (xall snd (map (fun c => (c, read_node c)) (map write_node nodes))) with (XOk nodes); [reflexivity|]. symmetry. apply xall_ok. clear NE.
  induction nodes as [|t nodes IHn]; cbn [map]; [constructor|]. inversion HF; inversion HE; subst. constructor; [now apply node_back|auto].
Qed.
Lemma root_only name nodes r : Forall fits nodes -> read_root (write_root name nodes) = XOk r -> nodes <> [] /\ Forall nothing_empty nodes.
Proof.
  intros HF HR. unfold read_root, write_root in HR. cbn [el_attrs el_children attr] in HR. cbn [String.eqb Ascii.eqb Bool.eqb] in HR.
  destruct nodes as [|t0 nodes]; [discriminate HR|]. split; [discriminate|].
  rewrite vec_same in HR; [|do 2 apply map_nonempty; discriminate|rewrite !Forall_map, Forall_forall; intros; apply write_node_tag].
  destruct (xall snd _) as [ys|] eqn:X; [|discriminate HR]. apply xall_ok in X. clear -HF X. revert ys X. induction (t0 :: nodes) as [|t l IHl]; intros ys X; constructor.
  - inversion HF; subst. cbn [map] in X. inversion X; subst. cbn [snd] in *. eapply node_only; eauto.
  - inversion HF; subst. cbn [map] in X. inversion X; subst. eauto.
Qed.
