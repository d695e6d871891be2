(** * Facts about XML documents *)
From Coq Require Import NArith ZArith List Bool Lia String Ascii.
From Verif Require Import Xml XmlFacts.
Import ListNotations.
Local Close Scope string_scope.
Open Scope N_scope.

Section Docs.
  Context {F : Type} (showF : F -> text) (readF : text -> option F).
  Hypothesis read_show : forall x, readF (showF x) = Some x.
  Hypothesis read_empty : readF [] = None.
  Notation xval := (xval F).

  Definition vfits (f : string * akind * presence) (v : xval) : Prop :=
    match v with
    | XNone _ => snd f <> Req
    | XS _ _ => snd (fst f) = AStr
    | XI _ z => (snd (fst f) = AI32 /\ (- 2 ^ 31 <= z < 2 ^ 31)%Z) \/ (snd (fst f) = AI64 /\ (- 2 ^ 63 <= z < 2 ^ 63)%Z)
    | XF _ _ => snd (fst f) = AF64
    end.
  (** A value that is lost: [None] in a field that is written nevertheless. *)
  Definition lost (f : string * akind * presence) (v : xval) : Prop := snd f = Opt /\ v = XNone F.

  Lemma written_names s : forall vs k, In k (map fst (write_attrs F showF s vs)) -> In k (map (fun f => fst (fst f)) s).
  Proof.
    induction s as [|[[n ki] p] s IH]; intros [|v vs] k; cbn [write_attrs map fst]; [easy|easy|easy|]. rewrite map_app, in_app_iff. intros [H|H]; [|right; eauto].
    destruct (skipped F p v); cbn in H; [easy|]. destruct H as [<-|[]]. now left.
  Qed.
  Lemma attr_app k a b : attr k (a ++ b) = match attr k a with Some v => Some v | None => attr k b end.
  Proof. induction a as [|[k' v] a IH]; [easy|]. rewrite <- app_comm_cons. cbn [attr]. now destruct (String.eqb k' k). Qed.
  Lemma attr_written s : NoDup (map (fun f => fst (fst f)) s) -> forall vs f v, In (f, v) (combine s vs) ->
    attr (fst (fst f)) (write_attrs F showF s vs) = if skipped F (snd f) v then None else Some (show_val F showF v).
  Proof.
    induction s as [|[[n ki] p] s IH]; intros ND vs f v I; [easy|]. cbn [map fst] in ND. apply NoDup_cons_iff in ND as [NI ND].
    destruct vs as [|w vs]; [easy|]. cbn [combine] in I. cbn [write_attrs]. rewrite attr_app. destruct I as [[= <- <-]|I].
    - cbn [fst snd]. destruct (skipped F p w); cbn [attr]; [|now rewrite String.eqb_refl]. apply attr_notin. intro H. apply NI. eapply written_names; eauto.
    - rewrite (IH ND vs f v I). destruct (skipped F p w); [easy|]. cbn [attr]. destruct (String.eqb_spec n (fst (fst f))) as [->|]; [|easy].
      destruct NI. apply in_map_iff. exists f. split; [easy|]. now apply in_combine_l in I.
  Qed.
  Lemma read_attr_back s vs f v : NoDup (map (fun f => fst (fst f)) s) -> In (f, v) (combine s vs) -> vfits f v ->
    (read_attr F readF f (write_attrs F showF s vs) = XOk v <-> ~ lost f v).
  Proof.
    intros ND I HV. pose proof (attr_written s ND vs f v I) as E. destruct f as [[n ki] p]. cbn [fst snd] in E. unfold read_attr. rewrite E. unfold lost. cbn [snd].
    destruct v as [t|z|x|]; cbn [vfits fst snd] in HV.
    - subst ki. replace (skipped F p (XS F t)) with false by now destruct p. cbn. split; [easy|]. easy.
    - replace (skipped F p (XI F z)) with false by now destruct p. cbn [show_val].
      assert (read_val F readF ki (show_Z z) = Some (XI F z)) as ->; [|now split].
      destruct HV as [[-> H]|[-> H]]; cbn [read_val]; [rewrite (read_int_show 32) by exact H|rewrite (read_int_show 64) by exact H]; reflexivity.
    - subst ki. replace (skipped F p (XF F x)) with false by now destruct p. cbn. rewrite read_show. cbn. now split.
    - destruct p; cbn [skipped show_val]; [easy| |now split]. split; [|intro H; destruct H; now split].
      destruct ki; cbn [read_val]; try rewrite read_empty; easy.
  Qed.
  Lemma Forall2_combine {A B} (R : A -> B -> Prop) l : forall l', Forall2 R l l' <-> List.length l = List.length l' /\ forall x y, In (x, y) (combine l l') -> R x y.
  Proof.
    induction l as [|a l IH]; intros [|b l']; cbn.
    - split; [easy|constructor].
    - split; [intro H; inversion H|intros [H _]; easy].
    - split; [intro H; inversion H|intros [H _]; easy].
    - split.
      + intro H. inversion H as [|? ? ? ? H1 H2]; subst. apply IH in H2 as [H2 H3]. split; [congruence|]. intros x y [[= <- <-]|I]; auto.
      + intros [H1 H2]. constructor; [apply H2; now left|]. apply IH. split; [congruence|]. intros x y I. apply H2. now right.
  Qed.
  Lemma attrs_back s vs : NoDup (map (fun f => fst (fst f)) s) -> Forall2 vfits s vs ->
    (read_attrs F readF s (write_attrs F showF s vs) = XOk vs <-> Forall2 (fun f v => ~ lost f v) s vs).
  Proof.
    intros ND HV. unfold read_attrs. rewrite xall_ok, !Forall2_combine in *. destruct HV as [HL HV]. split; intros [_ H]; (split; [easy|]); intros f v I; apply (read_attr_back s vs f v ND I (HV f v I)); auto.
  Qed.
  Lemma attrs_all s vs : NoDup (map (fun f => fst (fst f)) s) -> Forall (fun f => snd f <> Opt) s -> Forall2 vfits s vs ->
    read_attrs F readF s (write_attrs F showF s vs) = XOk vs.
  Proof.
    intros ND HO HV. apply attrs_back; [easy|easy|]. rewrite Forall2_combine in *. destruct HV as [HL _]. split; [easy|]. intros f v I [E _].
    rewrite Forall_forall in HO. apply (HO f); [now apply in_combine_l in I|easy].
  Qed.
  Fixpoint nodupb (l : list string) : bool := match l with [] => true | x :: l => negb (existsb (String.eqb x) l) && nodupb l end.
  Lemma nodup_strings (l : list string) : nodupb l = true -> NoDup l.
  Proof.
    induction l as [|x l IH]; [constructor|]. cbn [nodupb]. rewrite andb_true_iff, negb_true_iff. intros [H1 H2]. constructor; [|auto]. intro I.
    assert (existsb (String.eqb x) l = true) as E by (apply existsb_exists; exists x; split; [easy|apply String.eqb_refl]). congruence.
  Qed.
  Lemma track_names : NoDup (map (fun f : string * akind * presence => fst (fst f)) track_attrs). Proof. apply nodup_strings. vm_compute. reflexivity. Qed.
  Lemma tempo_names : NoDup (map (fun f : string * akind * presence => fst (fst f)) tempo_attrs). Proof. apply nodup_strings. vm_compute. reflexivity. Qed.
  Lemma mark_names : NoDup (map (fun f : string * akind * presence => fst (fst f)) mark_attrs). Proof. apply nodup_strings. vm_compute. reflexivity. Qed.
  Lemma product_names : NoDup (map (fun f : string * akind * presence => fst (fst f)) product_attrs). Proof. apply nodup_strings. vm_compute. reflexivity. Qed.

  (** ** Tracks *)
  Definition track_fits (t : track F) : Prop :=
    Forall2 vfits track_attrs (t_attrs F t) /\ Forall (Forall2 vfits tempo_attrs) (t_tempos F t) /\ Forall (Forall2 vfits mark_attrs) (t_marks F t).
  Definition track_whole (t : track F) : Prop := Forall2 (fun f v => ~ lost f v) track_attrs (t_attrs F t).
  Lemma runs_app {C} (tag : C -> string) s t a b : s <> t -> Forall (fun c => tag c = s) a -> Forall (fun c => tag c = t) b ->
    runs tag (a ++ b) = runs tag a ++ runs tag b.
  Proof.
    intros NE FA FB. induction FA as [|c a E FA IH]; [easy|]. cbn [app runs]. rewrite IH. destruct (runs tag a) as [|[t' l] r] eqn:R.
    - cbn [app]. destruct (runs tag b) as [|[t' l] r] eqn:RB; [easy|]. destruct b as [|d b]; [easy|]. rewrite (runs_same tag t) in RB by easy. injection RB as <- <- <-.
      rewrite (proj2 (String.eqb_neq _ _)) by congruence. easy.
    - cbn [app]. now destruct (String.eqb (tag c) t').
  Qed.
  Lemma runs_tag {C} (tag : C -> string) s cs : Forall (fun c => tag c = s) cs -> runs tag cs = match cs with [] => [] | _ => [(s, cs)] end.
  Proof. intro H. destruct cs as [|c cs]; [easy|]. now apply runs_same. Qed.
  Lemma xall_map {A B C} (f : B -> xres C) (g : A -> B) (l : list A) (h : A -> C) : (forall x, In x l -> f (g x) = XOk (h x)) -> xall f (map g l) = XOk (map h l).
  Proof. intro H. induction l as [|x l IH]; [easy|]. cbn [map xall]. rewrite (H x (or_introl eq_refl)), IH; [easy|]. intros; apply H; now right. Qed.
  Lemma the_runs_elems tag e : the_runs tag (elem_items e) = the_runs tag (map (fun r => IRun (fst r) (snd r)) (runs el_tag (el_children e))).
  Proof. unfold elem_items, items. now rewrite the_runs_app, the_runs_attrs. Qed.
  Lemma track_back t : track_fits t -> (read_track F readF (write_track F showF t) = XOk t <-> track_whole t).
  Proof.
    intros (HA & HT & HM). unfold read_track. cbn [write_track el_attrs].
    assert (xbind (default_field "TEMPO" (elem_items (write_track F showF t))) (xall (fun c => read_attrs F readF tempo_attrs (el_attrs c))) = XOk (t_tempos F t) /\
            xbind (default_field "POSITION_MARK" (elem_items (write_track F showF t))) (xall (fun c => read_attrs F readF mark_attrs (el_attrs c))) = XOk (t_marks F t)) as [ET EM].
    { assert (xall (fun c => read_attrs F readF tempo_attrs (el_attrs c)) (map (write_tempo F showF) (t_tempos F t)) = XOk (t_tempos F t)) as XT.
      { rewrite (xall_map _ _ _ (fun x => x)); [now rewrite map_id|]. intros x I. rewrite Forall_forall in HT. apply attrs_all; [apply tempo_names|now repeat constructor|auto]. }
      assert (xall (fun c => read_attrs F readF mark_attrs (el_attrs c)) (map (write_mark F showF) (t_marks F t)) = XOk (t_marks F t)) as XM.
      { rewrite (xall_map _ _ _ (fun x => x)); [now rewrite map_id|]. intros x I. rewrite Forall_forall in HM. apply attrs_all; [apply mark_names|now repeat constructor|auto]. }
      assert (Forall (fun c => el_tag c = "TEMPO"%string) (map (write_tempo F showF) (t_tempos F t))) as FT by (rewrite Forall_map, Forall_forall; easy).
      assert (Forall (fun c => el_tag c = "POSITION_MARK"%string) (map (write_mark F showF) (t_marks F t))) as FM by (rewrite Forall_map, Forall_forall; easy).
      unfold default_field. rewrite !the_runs_elems. cbn [write_track el_children]. rewrite (runs_app el_tag "TEMPO" "POSITION_MARK") by easy.
      rewrite (runs_tag _ _ _ FT), (runs_tag _ _ _ FM). clear FT FM.
      destruct (t_tempos F t) as [|x ts], (t_marks F t) as [|y ms]; split; try reflexivity; cbn [map app the_runs fst snd]; cbn [String.eqb Ascii.eqb Bool.eqb]; cbn [xbind]; first [exact XT|exact XM]. }
    rewrite ET, EM. unfold track_whole. rewrite <- (attrs_back track_attrs (t_attrs F t) track_names HA).
    destruct (read_attrs F readF track_attrs _) as [a|e]; cbn [xbind]; [|easy]. destruct t as [at' ts ms]. cbn [t_attrs t_tempos t_marks]. split; [intros [= ->]; easy|intros [= ->]; easy].
  Qed.

  (** ** Documents *)
  Definition doc_fits (d : document F) : Prop :=
    Forall2 vfits product_attrs (d_product F d) /\ (- 2 ^ 31 <= d_entries F d < 2 ^ 31)%Z /\ Forall track_fits (d_tracks F d) /\ Forall fits (d_nodes F d).
  Definition doc_whole (d : document F) : Prop :=
    d_tracks F d <> [] /\ Forall track_whole (d_tracks F d) /\ d_nodes F d <> [] /\ Forall nothing_empty (d_nodes F d).
  Lemma write_doc_items d : elem_items (write_doc F showF d) =
    [IAttr "Version" (d_version F d); IRun "PRODUCT" [El "PRODUCT" (write_attrs F showF product_attrs (d_product F d)) []];
     IRun "COLLECTION" [El "COLLECTION" [("Entries"%string, show_Z (d_entries F d))] (map (write_track F showF) (d_tracks F d))];
     IRun "PLAYLISTS" [El "PLAYLISTS" [] [write_root (d_root F d) (d_nodes F d)]]].
  Proof. reflexivity. Qed.
  Lemma xall_iff {A} (f : A -> xres A) (g : A -> xres A) (P : A -> Prop) l : (forall x, In x l -> (f x = XOk x <-> P x)) -> (xall f l = XOk l <-> Forall P l).
  Proof.
    intro H. rewrite xall_ok. induction l as [|x l IH]; [split; constructor|]. rewrite Forall_cons_iff, <- IH by (intros; apply H; now right). rewrite <- (H x (or_introl eq_refl)).
    split; [intro G; inversion G; easy|intros [G1 G2]; now constructor].
  Qed.
  Lemma xall_mapped {A B C} (f : B -> xres C) (g : A -> B) l : xall f (map g l) = xall (fun x => f (g x)) l.
  Proof. induction l as [|x l IH]; [easy|]. cbn [map xall]. now rewrite IH. Qed.
  Lemma doc_back d : doc_fits d -> (read_doc F readF (write_doc F showF d) = XOk d <-> doc_whole d).
  Proof.
    intros (HP & HE & HT & HN). unfold read_doc. unfold one_field at 1 2 3. rewrite write_doc_items. cbn [the_runs]. cbn [String.eqb Ascii.eqb Bool.eqb]. cbn [xbind write_doc el_attrs].
    replace (read_attrs F readF [("Version"%string, AStr, Req)] [("Version"%string, d_version F d)]) with (XOk [XS F (d_version F d)]) by reflexivity.
    rewrite (attrs_all product_attrs (d_product F d) product_names) by (try exact HP; now repeat constructor). cbn [xbind].
    replace (read_attrs F readF [("Entries"%string, AI32, Req)] [("Entries"%string, show_Z (d_entries F d))]) with (XOk [XI F (d_entries F d)]).
    2:{ unfold read_attrs. cbn [xall read_attr attr]. cbn [String.eqb Ascii.eqb Bool.eqb]. cbn [read_val]. now rewrite (read_int_show 32). }
    cbn [xbind].
    replace (one_field "NODE" (elem_items (El "PLAYLISTS" [] [write_root (d_root F d) (d_nodes F d)]))) with (XOk (write_root (d_root F d) (d_nodes F d))) by reflexivity.
    cbn [xbind]. unfold vec_field. rewrite the_runs_elems. cbn [el_children].
    rewrite (runs_tag el_tag "TRACK") by (rewrite Forall_map, Forall_forall; easy).
    unfold doc_whole. destruct d as [ve pr en tr ro no]. cbn [d_version d_product d_entries d_tracks d_root d_nodes] in *.
    destruct tr as [|t0 tr]; [cbn; split; [discriminate|intros [H _]; now destruct H]|].
    cbn [map]. change (write_track F showF t0 :: map (write_track F showF) tr) with (map (write_track F showF) (t0 :: tr)). cbn [the_runs fst snd].
    rewrite String.eqb_refl. cbn [xbind]. rewrite xall_mapped.
    assert (xall (fun x => read_track F readF (write_track F showF x)) (t0 :: tr) = XOk (t0 :: tr) <-> Forall track_whole (t0 :: tr)) as TB.
    { apply xall_iff; [exact (fun x => XOk x)|]. intros x I. apply track_back. rewrite Forall_forall in HT. now apply HT. }
    assert (read_root (write_root ro no) = XOk (ro, no) <-> no <> [] /\ Forall nothing_empty no) as RB.
    { split; [intro H; eapply root_only; eauto|intros [H1 H2]; now apply root_back]. }
    rewrite <- TB, <- RB. destruct (xall _ (t0 :: tr)) as [x|e]; cbn [xbind]; [|split; [discriminate|intros (_ & H & _); discriminate H]].
    destruct (read_root (write_root ro no)) as [[n ns]|e]; cbn [xbind fst snd]; [|split; [discriminate|intros (_ & _ & H); discriminate H]].
    split; [intros [= -> -> ->]; repeat split; discriminate|intros (_ & [= ->] & [= -> ->]); reflexivity].
  Qed.
End Docs.
