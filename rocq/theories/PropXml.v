(** * Properties C57 to C59 and C63: the XML format *)
From Coq Require Import NArith ZArith List Bool Lia String Permutation.
From Verif Require Import Xml XmlFacts XmlDoc.
Import ListNotations.
Local Close Scope string_scope.
Open Scope N_scope.

(** C57.  A tree reads back from its elements iff no folder and no playlist in it is empty; otherwise reading is an error. *)
Theorem c57_node : forall t, fits t -> (read_node (write_node t) = XOk t <-> nothing_empty t) /\ ((exists t', read_node (write_node t) = XOk t') -> nothing_empty t).
Proof. intros t H. split; [split; [now apply node_only|now apply node_back]|intros [t' E]; now apply node_only with t']. Qed.
Print Assumptions c57_node.
Theorem c57_root : forall name nodes, Forall fits nodes ->
  (read_root (write_root name nodes) = XOk (name, nodes) <-> nodes <> [] /\ Forall nothing_empty nodes).
Proof. intros name nodes H. split; [now apply root_only|intros [H1 H2]; now apply root_back]. Qed.
Print Assumptions c57_root.
Definition ex_tree : xnode := XFolder [70] [XPlaylist [80] [48] [1; -2]%Z; XFolder [] [XPlaylist [] [] [0]%Z]].
Example c57_example : fits ex_tree /\ nothing_empty ex_tree /\ read_node (write_node ex_tree) = XOk ex_tree /\
  read_node (write_node (XPlaylist [80] [48] [])) = XErr (XMissing "TRACK").
Proof.
  split; [cbn; repeat (apply conj || apply Forall_cons || apply Forall_nil || exact I); lia|]. split; [cbn; repeat split; discriminate|]. split; vm_compute; reflexivity.
Qed.

(** C58.  If all attributes are known and their numbers can be read, their order does not matter, neither for values nor for errors. *)
Theorem c58_order : forall tag attrs attrs' cs, Forall known attrs -> NoDup (map fst attrs) -> Permutation attrs attrs' ->
  read_node (El tag attrs cs) = read_node (El tag attrs' cs).
Proof. intros tag attrs attrs' cs. exact (read_perm tag tag attrs attrs' cs). Qed.
Print Assumptions c58_order.
Example c58_example : let attrs := [("KeyType", [48]); ("Count", [49]); ("Name", [80]); ("Entries", [48; 57]); ("Type", [49])]%string in
  Forall known attrs /\ NoDup (map fst attrs) /\ read_node (El "NODE" attrs [write_entry 5]) = XOk (XPlaylist [80] [48] [5]%Z).
Proof.
  split; [|split; [repeat constructor; cbn; intuition discriminate|vm_compute; reflexivity]].
  repeat apply Forall_cons; try apply Forall_nil; unfold known; cbn [fst snd]; [tauto| |tauto| |tauto]; (right; right; right; split; [tauto|]; eexists; vm_compute; reflexivity).
Qed.
(** Finding: an attribute that is unknown, or that is not needed and cannot be read, is an error before the needed ones and ignored after. *)
Theorem c58_other_attributes : forall a name n cs, n < 2 ^ 64 -> fst a <> "Name"%string -> fst a <> "Type"%string -> fst a <> "KeyType"%string ->
  (fst a = "Count"%string \/ fst a = "Entries"%string -> read_usize (snd a) = None) ->
  let needed := [("Type", [48]); ("Name", name); ("Count", show_N n)]%string in
  (exists e, read_node (El "NODE" (a :: needed) cs) = XErr e) /\
  read_node (El "NODE" (needed ++ [a]) cs) = read_node (El "NODE" needed cs).
Proof.
  intros [k v] name n cs HN H1 H2 H3 H4 needed. cbn [fst snd] in *. split.
  - cbn [read_node]. unfold items, needed. cbn [map fst snd]. rewrite <- app_comm_cons. cbn [visit]. unfold set_var.
    rewrite !(proj2 (String.eqb_neq k _)) by assumption.
    destruct (String.eqb_spec k "Count"); [rewrite H4 by tauto; eauto|]. destruct (String.eqb_spec k "KeyType"); [contradiction|].
    destruct (String.eqb_spec k "Entries"); [rewrite H4 by tauto; eauto|]. eauto.
  - cbn [read_node]. unfold needed, items. rewrite map_app. cbn [map fst snd app].
    assert (forall R, visit (IAttr "Type" [48] :: IAttr "Name" name :: IAttr "Count" (show_N n) :: R) no_vars =
      match vec_field "NODE" R with
      | XErr e => XErr e
      | XOk l => match xall snd l with XOk nodes => XOk (XFolder name nodes) | XErr e => XErr e end
      end) as V.
    { intro R. assert (set_var "Type" [48] no_vars = XOk (mk_vars (Some [48]) None None None None)) as E1 by reflexivity.
      assert (set_var "Name" name (mk_vars (Some [48]) None None None None) = XOk (mk_vars (Some [48]) (Some name) None None None)) as E2 by reflexivity.
      assert (set_var "Count" (show_N n) (mk_vars (Some [48]) (Some name) None None None) = XOk (mk_vars (Some [48]) (Some name) (Some n) None None)) as E3.
      { unfold set_var. cbn [String.eqb Ascii.eqb Bool.eqb]. now rewrite read_usize_show. }
      cbn [visit]. rewrite E1. cbn [v_type v_name v_count]. change (text_eqb [48] [48]) with true. rewrite E2. cbn [v_type v_name v_count].
      change (text_eqb [48] [48]) with true. rewrite E3. reflexivity. }
    rewrite !V. reflexivity.
Qed.
Print Assumptions c58_other_attributes.

(** C59.  The count written for a folder or playlist is the number of its children, in decimal. *)
Definition tagged (tag : string) (e : elem) : N := N.of_nat (List.length (filter (fun c => String.eqb (el_tag c) tag) (el_children e))).
Definition says (e : elem) (key : string) (n : N) : Prop := exists v, In (key, v) (el_attrs e) /\ read_usize v = Some n.
Theorem c59_folder : forall name nodes, N.of_nat (List.length nodes) < 2 ^ 64 ->
  says (write_node (XFolder name nodes)) "Count" (tagged "NODE" (write_node (XFolder name nodes))) /\
  says (write_root name nodes) "Count" (tagged "NODE" (write_root name nodes)) /\ tagged "NODE" (write_root name nodes) = N.of_nat (List.length nodes).
Proof.
  intros name nodes H. assert (forall l, filter (fun c => String.eqb (el_tag c) "NODE") (map write_node l) = map write_node l) as E.
  { induction l as [|t l IH]; [reflexivity|]. cbn [map filter]. rewrite write_node_tag, IH. reflexivity. }
  assert (tagged "NODE" (write_node (XFolder name nodes)) = N.of_nat (List.length nodes)) as T1 by (unfold tagged; cbn [write_node el_children]; rewrite E, map_length; reflexivity).
  assert (tagged "NODE" (write_root name nodes) = N.of_nat (List.length nodes)) as T2 by (unfold tagged; cbn [write_root el_children]; rewrite E, map_length; reflexivity).
  rewrite T1, T2. repeat split; (eexists; split; [cbn; eauto|now apply read_usize_show]).
Qed.
Print Assumptions c59_folder.
Theorem c59_playlist : forall name kt tracks, N.of_nat (List.length tracks) < 2 ^ 64 ->
  says (write_node (XPlaylist name kt tracks)) "Entries" (tagged "TRACK" (write_node (XPlaylist name kt tracks))) /\
  tagged "TRACK" (write_node (XPlaylist name kt tracks)) = N.of_nat (List.length tracks).
Proof.
  intros name kt tracks H. assert (tagged "TRACK" (write_node (XPlaylist name kt tracks)) = N.of_nat (List.length tracks)) as T.
  { unfold tagged. cbn [write_node el_children]. f_equal. clear. induction tracks as [|z l IH]; [reflexivity|]. cbn [map filter]. cbn. now rewrite IH. }
  rewrite T. split; [|reflexivity]. eexists. split; [cbn; eauto|now apply read_usize_show].
Qed.
Print Assumptions c59_playlist.
(** All elements of a written tree are written nodes or entries. *)
Theorem c59_inside : forall t c, In c (el_children (write_node t)) -> (exists t', c = write_node t') \/ (exists z, c = write_entry z).
Proof. intros [name nodes|name kt tracks] c I; cbn [write_node el_children] in I; apply in_map_iff in I as (x & <- & _); eauto. Qed.
Print Assumptions c59_inside.
(** Finding (FIXME in the code): on reading, the count is not compared with the number of children. *)
Theorem c59_unchecked : forall name n n' cs, n < 2 ^ 64 -> n' < 2 ^ 64 ->
  read_node (El "NODE" [("Type", [48]); ("Name", name); ("Count", show_N n)]%string cs) =
  read_node (El "NODE" [("Type", [48]); ("Name", name); ("Count", show_N n')]%string cs).
Proof.
  intros name n n' cs H H'. destruct (folder_attrs name n H) as (K & ND & E). destruct (folder_attrs name n' H') as (K' & ND' & E').
  rewrite (read_folder _ _ _ name n K ND eq_refl eq_refl E), (read_folder _ _ _ name n' K' ND' eq_refl eq_refl E'). reflexivity.
Qed.
Print Assumptions c59_unchecked.
Example c59_example : el_attrs (write_node ex_tree) = [("Type", [48]); ("Name", [70]); ("Count", [50])]%string.
Proof. reflexivity. Qed.

(** C63.  A document reads back iff it has a track, every track has all the optional values that are written even if there are none, the root
    has a node, and no folder or playlist is empty.  Floating point numbers are any type whose values can be shown and read back. *)
Theorem c63_document : forall (F : Type) (showF : F -> text) (readF : text -> option F), (forall x, readF (showF x) = Some x) -> readF [] = None ->
  forall d, doc_fits d -> (read_doc F readF (write_doc F showF d) = XOk d <-> doc_whole d).
Proof. intros F showF readF H1 H2 d. exact (doc_back showF readF H1 H2 d). Qed.
Print Assumptions c63_document.
Theorem c63_track : forall (F : Type) (showF : F -> text) (readF : text -> option F), (forall x, readF (showF x) = Some x) -> readF [] = None ->
  forall t, track_fits t -> (read_track F readF (write_track F showF t) = XOk t <-> track_whole t).
Proof. intros F showF readF H1 H2 t. exact (track_back showF readF H1 H2 t). Qed.
Print Assumptions c63_track.

(** With integers in place of floating point numbers. *)
Definition ex_show (n : N) : text := show_N n.
Definition ex_read (t : text) : option N := magnitude t.
Definition s (t : text) : xval N := XS N t.
Definition i (z : Z) : xval N := XI N z.
Definition ex_track (dated : bool) (named : bool) : track N := mk_track N
  [i 1; if named then s [65] else XNone N; s []; s []; s []; s []; s []; s []; i 9; XF N 5; i 0; i 0; i 0; XF N 12; if dated then s [50] else XNone N; XNone N; i 1; XF N 4; s []; i 0; XNone N; i 255;
   s [76]; s []; s []; s []; s []; XNone N]
  [[XF N 1; XF N 2; s [52]; i 1]] [[s []; i (-1); XF N 7; XNone N; i 0]; [s []; i 2; XF N 7; XF N 8; i 0]].
Definition ex_doc (dated named : bool) : document N := mk_doc N [49] [s [65]; s [66]; s [67]] 1 [ex_track dated named] [82] [ex_tree].
Example c63_example : doc_fits (ex_doc false true) /\ doc_whole (ex_doc false true) /\
  read_doc N ex_read (write_doc N ex_show (ex_doc false true)) = XOk (ex_doc false true) /\
  exists d, read_doc N ex_read (write_doc N ex_show (ex_doc true false)) = XOk d /\ d <> ex_doc true false.
Proof.
  split; [|split; [|split; [vm_compute; reflexivity|]]].
  - unfold doc_fits, track_fits. cbn [ex_doc ex_track d_product d_entries d_tracks d_nodes t_attrs t_tempos t_marks].
    unfold product_attrs, track_attrs, tempo_attrs, mark_attrs.
    repeat (apply conj || apply Forall_cons || apply Forall_nil || apply Forall2_cons || apply Forall2_nil); cbn [vfits s i fst snd]; try reflexivity; try discriminate; try lia;
    try (left; split; [reflexivity|lia]); try (right; split; [reflexivity|lia]); cbn; repeat (apply conj || apply Forall_cons || apply Forall_nil || exact Logic.I); lia.
  - unfold doc_whole, track_whole. cbn [ex_doc ex_track d_product d_entries d_tracks d_nodes t_attrs t_tempos t_marks].
    split; [discriminate|]. split; [|split; [discriminate|]].
    + apply Forall_cons; [|apply Forall_nil]. cbn [t_attrs]. unfold track_attrs.
      repeat (apply Forall2_cons || apply Forall2_nil); unfold lost; cbn [snd]; intros [? ?]; discriminate.
    + apply Forall_cons; [|apply Forall_nil]. cbn. repeat split; discriminate.
  - eexists. split; [vm_compute; reflexivity|discriminate].
Qed.
