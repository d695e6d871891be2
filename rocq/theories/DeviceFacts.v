(** * Facts about loading settings and the playlist tree *)
From Coq Require Import NArith ZArith List Bool Lia String Relations.
From Coq Require Import ZifyBool ZifyNat ZifyN.
From Verif Require Import Base BaseFacts Str Schema Rows Page Db Crc CrcFacts Setting SettingFacts SettingSpec Device.
Import ListNotations.
Open Scope N_scope.

(** ** Settings *)
Lemma stype_eqb_refl t : stype_eqb t t = true. Proof. now destruct t. Qed.
Lemma rd_setting_type t buf pos s p : rd_setting t buf pos = Ok (s, p) -> sd_type (st_data s) = t.
Proof.
  unfold rd_setting. intro H.
  apply bind_inv in H as (n & p0 & _ & H). apply bind_inv in H as (u & p1 & _ & H).
  apply bind_inv in H as (b1 & p2 & _ & H). apply bind_inv in H as (b2 & p3 & _ & H). apply bind_inv in H as (b3 & p4 & _ & H).
  apply bind_inv in H as (m & p5 & _ & H). apply bind_inv in H as (u2 & p6 & _ & H).
  apply bind_inv in H as (d & p7 & HD & H). apply bind_inv in H as (c & p8 & _ & H). apply bind_inv in H as (z & p9 & _ & H).
  apply bind_inv in H as (u3 & p10 & _ & H). apply ret_inv in H as [<- _]. cbn [st_data].
  unfold rd_sdata in HD. destruct (rd_items _ _ _) as [[vs q]| |]; try easy. assert (d = mk_sdata t vs) as -> by congruence. easy.
Qed.

(** What one file contributes. *)
Definition file_data (fs : string -> fstate) (t : stype) : option (list sval) :=
  match fs (setting_file t) with
  | FsError => None
  | FsBytes bs => match rd_setting t bs 0 with Ok (s, _) => Some (sd_vals (st_data s)) | _ => None end
  end.

Lemma load_one_ok fs t s : load_one fs t s = Ok (match file_data fs t with Some vs => set_data t vs s | None => s end).
Proof.
  unfold load_one, read_setting_file, file_data. destruct (fs (setting_file t)) as [|bs]; [easy|].
  pose proof (setting_no_panic t bs 0) as NP. destruct (rd_setting t bs 0) as [[st p]| |] eqn:R; try easy.
  unfold as_setting. now rewrite (rd_setting_type _ _ _ _ _ R), stype_eqb_refl.
Qed.

Definition owner (t : stype) (f : string) : option string :=
  option_map snd (find (fun a => String.eqb (fst a) f) (rev (assigns_of t))).

Lemma fold_upd (g : string -> option string) l : forall s f,
  fold_left (fun s a => upd s (fst a) (g (snd a))) l s f =
  match find (fun a => String.eqb (fst a) f) (rev l) with Some a => g (snd a) | None => s f end.
Proof.
  induction l as [|a l IH] using rev_ind; intros s f; [easy|].
  rewrite fold_left_app, rev_app_distr. cbn [fold_left rev app find]. unfold upd at 1. destruct (String.eqb (fst a) f); [easy|apply IH].
Qed.
Lemma set_data_at t vs s f : set_data t vs s f = match owner t f with Some src => field_val (names_of t) vs src | None => s f end.
Proof.
  unfold set_data. rewrite (fold_upd (field_val (names_of t) vs)). unfold owner.
  destruct (find _ _) as [a|]; easy.
Qed.

(** The options by file, position and name. *)
Definition options_of (t : stype) : list (nat * string * senum) :=
  flat_map (fun p => match snd p with IOpt e => [(fst p, e)] | _ => [] end)
    (combine (combine (seq 0 (List.length (items_of t))) (names_of t)) (items_of t)).

Definition all_types := [TDev; TDjm; TMy; TMy2].
Lemma in_all_types t : In t all_types. Proof. destruct t; cbn; tauto. Qed.

Lemma owners_ok : forallb (fun t => forallb (fun p =>
    forallb (fun t' => match owner t' (snd (fst p)) with
                       | Some src => stype_eqb t t' && String.eqb src (snd (fst p))
                       | None => negb (stype_eqb t t') end) all_types) (options_of t)) all_types = true.
Proof. vm_compute. reflexivity. Qed.

Lemma owner_option t p t' : In p (options_of t) -> owner t' (snd (fst p)) = if stype_eqb t t' then Some (snd (fst p)) else None.
Proof.
  intro H. pose proof owners_ok as W. rewrite forallb_forall in W. specialize (W t (in_all_types t)).
  rewrite forallb_forall in W. specialize (W p H). rewrite forallb_forall in W. specialize (W t' (in_all_types t')).
  destruct (owner t' (snd (fst p))) as [src|].
  - apply andb_true_iff in W as [-> W]. apply String.eqb_eq in W as ->. easy.
  - now destruct (stype_eqb t t').
Qed.

Lemma names_index_ok : forallb (fun t => forallb (fun p =>
    forallb (fun k => Bool.eqb (String.eqb (nth k (names_of t) ""%string) (snd (fst p))) (Nat.eqb k (fst (fst p)))) (seq 0 (List.length (names_of t)))
    && Nat.ltb (fst (fst p)) (List.length (names_of t))) (options_of t)) all_types = true.
Proof. vm_compute. reflexivity. Qed.

Lemma field_val_nth names : forall vs i f, (i < List.length names)%nat ->
  (forall k, (k < List.length names)%nat -> (nth k names ""%string = f <-> k = i)) ->
  field_val names vs f = match nth_error vs i with Some (VOpt x) => Some x | _ => None end.
Proof.
  induction names as [|n names IH]; intros vs i f L H; [easy|]. cbn [List.length] in *.
  destruct vs as [|v vs]; cbn [field_val]; [now destruct i|].
  destruct (String.eqb_spec n f) as [E|E].
  - assert (0%nat = i) as <- by (apply H; [lia|easy]). cbn [nth_error]. now destruct v.
  - destruct i as [|i]; [exfalso; apply E; apply (H 0%nat); [lia|easy]|]. cbn [nth_error]. apply IH; [lia|].
    intros k K. specialize (H (S k) ltac:(lia)). cbn [nth] in H. rewrite H. lia.
Qed.
Lemma option_value t p vs : In p (options_of t) ->
  field_val (names_of t) vs (snd (fst p)) = match nth_error vs (fst (fst p)) with Some (VOpt x) => Some x | _ => None end.
Proof.
  intro H. pose proof names_index_ok as W. rewrite forallb_forall in W. specialize (W t (in_all_types t)).
  rewrite forallb_forall in W. specialize (W p H). apply andb_true_iff in W as [W L]. apply Nat.ltb_lt in L.
  apply field_val_nth; [easy|]. intros k K. rewrite forallb_forall in W. specialize (W k ltac:(apply in_seq; lia)).
  apply Bool.eqb_prop in W. rewrite <- String.eqb_eq, <- Nat.eqb_eq, W. easy.
Qed.

Lemma load_settings_at fs : exists s, load_settings fs = Ok s /\
  forall t p, In p (options_of t) ->
    s (snd (fst p)) = match file_data fs t with
                      | Some vs => match nth_error vs (fst (fst p)) with Some (VOpt x) => Some x | _ => None end
                      | None => None end.
Proof.
  unfold load_settings. repeat (rewrite load_one_ok; cbn [res_bind]). eexists. split; [reflexivity|]. intros t p H.
  assert (forall t' s, (match file_data fs t' with Some vs => set_data t' vs s | None => s end) (snd (fst p)) =
            if stype_eqb t t' then match file_data fs t' with Some vs => field_val (names_of t) vs (snd (fst p)) | None => s (snd (fst p)) end else s (snd (fst p))) as K.
  { intros t' s. destruct (file_data fs t') as [vs|]; [|now destruct (stype_eqb t t')].
    rewrite set_data_at, (owner_option t p t' H). destruct (stype_eqb t t') eqn:E; [|easy].
    assert (t = t') as -> by (destruct t, t'; easy). easy. }
  rewrite !K. clear K. destruct t; cbn [stype_eqb]; destruct (file_data fs _); try easy; now apply option_value.
Qed.

(** Every field of [Settings] is an option of exactly one file. *)
Lemma settings_fields_ok : forall f, In f settings_fields <-> exists t p, In p (options_of t) /\ snd (fst p) = f.
Proof.
  assert (H1 : forallb (fun f => existsb (fun t => existsb (fun p => String.eqb (snd (fst p)) f) (options_of t)) all_types) settings_fields = true)
    by (vm_compute; reflexivity).
  assert (H2 : forallb (fun t => forallb (fun p => existsb (String.eqb (snd (fst p))) settings_fields) (options_of t)) all_types = true)
    by (vm_compute; reflexivity).
  rewrite forallb_forall in H1, H2. intro f. split.
  - intro F. specialize (H1 f F). apply existsb_exists in H1 as (t & _ & H1). apply existsb_exists in H1 as (p & P & E).
    apply String.eqb_eq in E. eauto.
  - intros (t & p & P & <-). specialize (H2 t (in_all_types t)). rewrite forallb_forall in H2. specialize (H2 p P).
    apply existsb_exists in H2 as (g & G & E). now apply String.eqb_eq in E as ->.
Qed.

(** ** The map of children *)
Lemma mm_get_push {V} (m : list (N * list V)) k v k' :
  mm_get (mm_push m k v) k' = if k =? k' then Some ((match mm_get m k with Some vs => vs | None => [] end) ++ [v]) else mm_get m k'.
Proof.
  induction m as [|[k0 vs] m IH]; cbn [mm_push mm_get].
  - destruct (k =? k'); easy.
  - destruct (N.eqb_spec k0 k) as [->|E]; cbn [mm_get]; rewrite ?N.eqb_refl.
    + destruct (N.eqb_spec k k'); easy.
    + destruct (N.eqb_spec k0 k') as [->|E']; [destruct (N.eqb_spec k k'); [congruence|easy]|]. exact IH.
Qed.

Definition kids (ns : list node) (id : N) : list node := filter (fun n => nd_parent n =? id) ns.

Lemma by_parent_get ns id : match mm_get (by_parent ns) id with Some l => l | None => [] end = kids ns id.
Proof.
  unfold by_parent. induction ns as [|n ns IH] using rev_ind; [easy|].
  rewrite fold_left_app. cbn [fold_left]. rewrite mm_get_push. unfold kids in *. rewrite filter_app. cbn [filter].
  destruct (N.eqb_spec (nd_parent n) id) as [->|E]; [now rewrite IH|]. now rewrite IH, app_nil_r.
Qed.

(** ** Depth *)
(** There is a path of [d] folders below [id]. *)
Fixpoint deep (ns : list node) (d : nat) (id : N) : Prop :=
  match d with
  | O => True
  | S d => exists n, In n ns /\ nd_parent n = id /\ nd_folder n = true /\ deep ns d (nd_id n)
  end.

Lemma collect_map_none {A B} (f : A -> option (outcome B)) l : collect_map f l = None -> exists x, In x l /\ f x = None.
Proof.
  induction l as [|x l IH]; cbn [collect_map]; [easy|]. destruct (f x) as [[y|e|]|] eqn:F; try easy.
  - destruct (collect_map f l) as [[ys|e|]|]; try easy. intros _. destruct IH as (z & Z & FZ); [easy|]. exists z. split; [now right|easy].
  - intros _. exists x. split; [now left|easy].
Qed.
Lemma collect_map_some {A B} (f : A -> option (outcome B)) l :
  (forall x, In x l -> exists y, f x = Some (Done y)) -> exists ys, collect_map f l = Some (Done ys).
Proof.
  induction l as [|x l IH]; intro H; [now exists []|]. cbn [collect_map].
  destruct (H x (or_introl eq_refl)) as [y ->]. destruct IH as [ys ->]; [intros; apply H; now right|]. eauto.
Qed.
Lemma collect_map_none_if {A B} (f : A -> option (outcome B)) l x :
  (forall y, In y l -> f y = None \/ exists z, f y = Some (Done z)) -> In x l -> f x = None -> collect_map f l = None.
Proof.
  induction l as [|y l IH]; intros H I E; [easy|]. cbn [collect_map]. destruct I as [->|I]; [now rewrite E|].
  destruct (H y (or_introl eq_refl)) as [->|[z ->]]; [easy|]. rewrite IH; [easy| |easy|easy]. intros; apply H; now right.
Qed.

Lemma collect_map_cases {A B} (f : A -> option (outcome B)) l :
  (forall y, In y l -> f y = None \/ exists z, f y = Some (Done z)) -> collect_map f l = None \/ exists ys, collect_map f l = Some (Done ys).
Proof.
  induction l as [|y l IH]; intro H; [right; now exists []|]. cbn [collect_map].
  destruct (H y (or_introl eq_refl)) as [->|[z ->]]; [now left|].
  destruct IH as [->|[ys ->]]; [intros; apply H; now right|now left|right; eauto].
Qed.

(** Without assumptions on names: an unfinished recursion means a deep path. *)
Lemma unfinished_deep ns d : forall id, child_nodes d (by_parent ns) id = None -> deep ns d id.
Proof.
  induction d as [|d IH]; intros id H; [easy|]. cbn [child_nodes] in H. rewrite by_parent_get in H.
  apply collect_map_none in H as (n & I & H). apply filter_In in I as [I P]. apply N.eqb_eq in P.
  destruct (dstr_into_string (nd_name n)) as [s|e]; [|easy]. destruct (nd_folder n) eqn:F; [|easy].
  destruct (child_nodes d (by_parent ns) (nd_id n)) as [[ch|e|]|] eqn:C; try easy. exists n. auto.
Qed.

(** ** Settings: statement by position *)
Lemma in_options t i name e : nth_error (names_of t) i = Some name -> nth_error (items_of t) i = Some (IOpt e) -> In (i, name, e) (options_of t).
Proof.
  intros HN HI. unfold options_of. apply in_flat_map. exists (i, name, IOpt e). split; [|now left].
  assert (forall {A B} (l : list A) (l' : list B) j x y, nth_error l j = Some x -> nth_error l' j = Some y -> In (x, y) (combine l l')) as K.
  { intros A B. induction l as [|a l IH]; intros [|b l'] [|j] x y H1 H2; cbn in *; try easy; [left; congruence|right; eauto]. }
  assert (nth_error (combine (seq 0 (List.length (items_of t))) (names_of t)) i = Some (i, name)) as H.
  { assert (forall {A B} (l : list A) (l' : list B) j x y, nth_error l j = Some x -> nth_error l' j = Some y -> nth_error (combine l l') j = Some (x, y)) as K2.
    { intros A B. induction l as [|a l IH]; intros [|b l'] [|j] x y H1 H2; cbn in *; try easy; [congruence|eauto]. }
    apply K2; [|easy]. assert (i < List.length (items_of t))%nat by (apply nth_error_Some; congruence).
    rewrite nth_error_nth' with (d := 0%nat) by now rewrite seq_length. f_equal. rewrite seq_nth; lia. }
  now apply (K _ _ _ _ i).
Qed.
Lemma rd_items_opt l : forall buf pos vs p i e, rd_items l buf pos = Ok (vs, p) -> nth_error l i = Some (IOpt e) -> exists v, nth_error vs i = Some (VOpt v).
Proof.
  induction l as [|it l IH]; intros buf pos vs p i e H HE; [now destruct i|]. cbn [rd_items] in H.
  apply bind_inv in H as (v & p1 & HV & H). apply bind_inv in H as (ws & p2 & HW & H). apply ret_inv in H as [<- _].
  destruct i as [|i]; cbn [nth_error] in *; [|now apply (IH _ _ _ _ i e HW)]. assert (it = IOpt e) as -> by congruence. cbn [rd_item] in HV.
  apply bind_inv in HV as (c & p3 & _ & HV). destruct (se_variant e c) as [s|]; [|easy]. apply ret_inv in HV as [<- _]. eauto.
Qed.
Lemma rd_setting_opt t buf pos s p i e : rd_setting t buf pos = Ok (s, p) -> nth_error (items_of t) i = Some (IOpt e) -> exists v, nth_error (sd_vals (st_data s)) i = Some (VOpt v).
Proof.
  unfold rd_setting. intros H HE.
  apply bind_inv in H as (n & p0 & _ & H). apply bind_inv in H as (u & p1 & _ & H).
  apply bind_inv in H as (b1 & p2 & _ & H). apply bind_inv in H as (b2 & p3 & _ & H). apply bind_inv in H as (b3 & p4 & _ & H).
  apply bind_inv in H as (m & p5 & _ & H). apply bind_inv in H as (u2 & p6 & _ & H).
  apply bind_inv in H as (d & p7 & HD & H). apply bind_inv in H as (c & p8 & _ & H). apply bind_inv in H as (z & p9 & _ & H).
  apply bind_inv in H as (u3 & p10 & _ & H). apply ret_inv in H as [<- _]. cbn [st_data].
  unfold rd_sdata in HD. destruct (rd_items (items_of t) buf p6) as [[vs q]| |] eqn:HV; try easy. assert (d = mk_sdata t vs) as -> by congruence. cbn [sd_vals]. now apply (rd_items_opt _ _ _ _ _ _ e HV).
Qed.
Lemma load_settings_spec fs : exists s, load_settings fs = Ok s /\
  forall t i name e, nth_error (names_of t) i = Some name -> nth_error (items_of t) i = Some (IOpt e) ->
    (forall bs st p, fs (setting_file t) = FsBytes bs -> rd_setting t bs 0 = Ok (st, p) ->
       exists v, nth_error (sd_vals (st_data st)) i = Some (VOpt v) /\ s name = Some v) /\
    ((fs (setting_file t) = FsError \/ exists bs er, fs (setting_file t) = FsBytes bs /\ rd_setting t bs 0 = Err er) -> s name = None).
Proof.
  destruct (load_settings_at fs) as (s & HL & HS). exists s. split; [easy|]. intros t i name e HN HI.
  specialize (HS t (i, name, e) (in_options _ _ _ _ HN HI)). cbn [fst snd] in HS. unfold file_data in HS. split.
  - intros bs st p HF HR. rewrite HF, HR in HS. destruct (rd_setting_opt _ _ _ _ _ _ _ HR HI) as [v HV]. exists v. rewrite HV in HS. easy.
  - intros [HF|(bs & er & HF & HR)]; [now rewrite HF in HS|now rewrite HF, HR in HS].
Qed.
Lemma load_settings_local fs fs' t s s' : fs (setting_file t) = fs' (setting_file t) -> load_settings fs = Ok s -> load_settings fs' = Ok s' ->
  forall i name e, nth_error (names_of t) i = Some name -> nth_error (items_of t) i = Some (IOpt e) -> s name = s' name.
Proof.
  intros HF HS HS' i name e HN HI. destruct (load_settings_at fs) as (s0 & H0 & A). destruct (load_settings_at fs') as (s0' & H0' & A').
  assert (s0 = s) as -> by congruence. assert (s0' = s') as -> by congruence.
  pose proof (in_options _ _ _ _ HN HI) as O. specialize (A t _ O). specialize (A' t _ O). cbn [fst snd] in A, A'. rewrite A, A'. unfold file_data. now rewrite HF.
Qed.
Lemma settings_fields_spec f : In f settings_fields <-> exists t i e, nth_error (names_of t) i = Some f /\ nth_error (items_of t) i = Some (IOpt e).
Proof.
  rewrite settings_fields_ok. split.
  - intros (t & [[i n] e] & P & <-). exists t, i, e. cbn [fst snd]. unfold options_of in P. apply in_flat_map in P as ([[j m] it] & P & Q). cbn [fst snd] in Q.
    destruct it as [e'|]; [|easy]. destruct Q as [Q|[]]. assert (j = i /\ m = n /\ e' = e) as (-> & -> & ->) by (repeat split; congruence). clear Q.
    assert (forall {A B} (l : list A) (l' : list B) x y, In (x, y) (combine l l') -> exists k, nth_error l k = Some x /\ nth_error l' k = Some y) as K.
    { intros A B. induction l as [|a l IH]; intros [|b l'] x y H; cbn in *; try easy. destruct H as [H|H].
      - exists 0%nat. cbn. split; congruence.
      - destruct (IH _ _ _ H) as (k & K1 & K2). exists (S k). easy. }
    apply K in P as (k & P & P2).
    assert (forall {A B} (l : list A) (l' : list B) j x y, nth_error (combine l l') j = Some (x, y) -> nth_error l j = Some x /\ nth_error l' j = Some y) as K2.
    { intros A B. induction l as [|a l IH]; intros [|b l'] [|j] x y H; cbn in *; try easy; [split; congruence|now apply IH]. }
    apply K2 in P as [P1 P3]. assert (k = i) as ->; [|easy].
    assert (k < List.length (items_of t))%nat by (apply nth_error_Some; congruence).
    rewrite nth_error_nth' with (d := 0%nat) in P1 by now rewrite seq_length. rewrite seq_nth in P1 by easy. injection P1 as P1. lia.
  - intros (t & i & e & HN & HI). exists t, (i, f, e). split; [now apply in_options|easy].
Qed.
