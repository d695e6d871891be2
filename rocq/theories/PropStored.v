(** * Property theorems C52, C55, C76: where the commands find what they show *)
From Coq Require Import NArith ZArith List Bool Lia String.
From Verif Require Import Base Str Schema Oa Rows Page Db Layout LayoutDb RowShape DeviceTree CliList Device Cli Listing PropLayout.
Import ListNotations.
Local Close Scope string_scope.
Open Scope N_scope.

Definition plain_number (f : field) : bool := match f with FInt _ _ | FEnum _ _ _ | FEnumF _ _ _ => true | _ => false end.
Lemma numbers_nth n : forall fs vs x, Forall2 vshape fs vs -> forallb plain_number (firstn n fs) = true -> nth_error vs n = Some (VInt x) -> nth_error (numbers vs) n = Some x.
Proof.
  induction n as [|n IH]; intros fs vs x F P H.
  - destruct vs as [|v vs]; [easy|]. injection H as ->. reflexivity.
  - destruct F as [|f v fs vs HV F]; [easy|]. cbn [firstn forallb] in P. apply andb_true_iff in P as [P1 P2]. rewrite numbers_cons.
    assert (exists y, numbers [v] = [y]) as [y ->] by (destruct f; try easy; destruct v; try easy; eexists; reflexivity).
    cbn [app nth_error]. now apply (IH fs).
Qed.
Lemma place_nth buf pos n : forall l xs q x, Forall2 (at_place buf pos) l xs -> nth_error l n = Some q -> nth_error xs n = Some x -> at_place buf pos q x.
Proof.
  induction n as [|n IH]; intros l xs q x F H1 H2; destruct F as [|a b l xs HA F]; try easy.
  - injection H1 as ->. now injection H2 as ->.
  - now apply (IH l xs).
Qed.
(** The value of field [n] of a row of kind [k] is at its place. *)
Lemma stored rs k buf pos vs oc p n x q : rd_row rs (PT k) buf pos = Ok (RRow k vs oc, p) -> forallb plain_number (firstn n (row_fields k)) = true ->
  nth_error vs n = Some (VInt x) -> nth_error (row_layout k) n = Some q -> at_place buf pos q x.
Proof.
  intros R P H Q. pose proof (rd_row_shaped _ _ _ _ _ _ R) as [F _]. apply c66_read in R as (vs' & oc' & E & L & _). injection E as <- <-.
  apply (place_nth buf pos n (row_layout k) (numbers vs)); [exact L|exact Q|]. now apply (numbers_nth n (row_fields k)).
Qed.
Lemma kind_of_read rs k buf pos r p : rd_row rs (PT k) buf pos = Ok (r, p) -> row_shaped r /\ is_variant k r = true /\ exists vs oc, r = RRow k vs oc.
Proof.
  intros R. split; [exact (rd_row_shaped _ _ _ _ _ _ R)|]. apply c66_read in R as (vs & oc & -> & _). split; [|now exists vs, oc]. cbn [is_variant]. now destruct (rkind_eq_dec k k).
Qed.

Ltac unfold_shape F :=
  repeat match type of F with Forall2 _ (_ :: _) _ => let H := fresh "HV" in let G := fresh "F" in inversion F as [|? ? ? ? H G]; clear F; subst; rename G into F end;
  inversion F; subst; repeat match goal with H : vshape _ ?v |- _ => destruct v; try contradiction H; clear H end; eauto 8.

(** A node of the tree of playlists: the number of its parent is in the first four bytes of its row, its own number at 12, whether it is a folder
    at 16, the name at 20.  Every row of the table is a node. *)
Theorem c52_stored : forall rs buf pos r p, rd_row rs (PT KPlaylistTreeNode) buf pos = Ok (r, p) -> exists n q, node_of_row r = Some n /\
  number buf pos 4 = Some (nd_parent n) /\ number buf (pos + 12) 4 = Some (nd_id n) /\ number buf (pos + 16) 4 = Some (nd_isf n) /\ rs buf (pos + 20) = Ok (nd_name n, q).
Proof.
  intros rs buf pos r p R. destruct (kind_of_read _ _ _ _ _ _ R) as (HS & HV & vs & oc & ->). destruct (node_of_shaped _ HS HV) as [n HN].
  pose proof (c66_read _ _ _ _ _ _ R) as (vs' & oc' & E & _ & _ & HT & _). injection E as <- <-. destruct (HT 20 eq_refl) as (d & l & p' & T1 & T2).
  assert (exists a u1 u2 i f nm, vs = [VInt a; VInt u1; VInt u2; VInt i; VInt f; VStr nm]) as (a & u1 & u2 & i & f & nm & ->).
  { destruct HS as [F _]. cbn [row_fields] in F. unfold_shape F. }
  injection HN as <-.
  cbn in T1. injection T1 as <- <-. exists (mk_node a i f nm), p'. split; [reflexivity|]. cbn [nd_parent nd_id nd_isf nd_name].
  split; [pose proof (stored _ _ _ _ _ _ _ 0 a _ R eq_refl eq_refl eq_refl) as H; unfold at_place in H; cbn in H; now rewrite N.add_0_r in H|].
  split; [exact (stored _ _ _ _ _ _ _ 3 i _ R eq_refl eq_refl eq_refl)|]. split; [exact (stored _ _ _ _ _ _ _ 4 f _ R eq_refl eq_refl eq_refl)|exact T2].
Qed.
Print Assumptions c52_stored.
(** An entry of a playlist: its index, then the number of the track, then the number of the playlist. *)
Theorem c55_stored : forall rs buf pos r p, rd_row rs (PT KPlaylistEntry) buf pos = Ok (r, p) -> exists e, pentry_of_row r = Some e /\
  number buf pos 4 = Some (pe_index e) /\ number buf (pos + 4) 4 = Some (pe_track e) /\ number buf (pos + 8) 4 = Some (pe_playlist e).
Proof.
  intros rs buf pos r p R. destruct (kind_of_read _ _ _ _ _ _ R) as (HS & HV & vs & oc & ->). destruct (pentry_of_shaped _ HS HV) as [e HE].
  exists e. split; [exact HE|]. assert (exists i t l, vs = [VInt i; VInt t; VInt l]) as (i & t & l & ->).
  { destruct HS as [F _]. cbn [row_fields] in F. unfold_shape F. }
  pose proof (stored _ _ _ _ _ _ _ 0 i _ R eq_refl eq_refl eq_refl) as H0. pose proof (stored _ _ _ _ _ _ _ 1 t _ R eq_refl eq_refl eq_refl) as H1.
  pose proof (stored _ _ _ _ _ _ _ 2 l _ R eq_refl eq_refl eq_refl) as H2. unfold at_place in *. cbn in H0, H1, H2. rewrite N.add_0_r in H0.
  injection HE as <-. split; [exact H0|]. split; [exact H1|exact H2].
Qed.
Print Assumptions c55_stored.
(** A track: its number is at 0x48, the number of the artist at 0x44; the title is string 17 and the path string 20 of those that the row points to. *)
Theorem c55_track_stored : forall rs buf pos r p, rd_row rs (PT KTrack) buf pos = Ok (r, p) -> exists i a title file ds,
  track_of_row r = Some (i, file) /\ listed_track_of_row r = Some (i, (a, title)) /\
  number buf (pos + 0x48) 4 = Some i /\ number buf (pos + 0x44) 4 = Some a /\ pointed rs buf pos 0x5c 21 ds /\ getN ds 17 = Some title /\ getN ds 20 = Some file.
Proof.
  intros rs buf pos r p R. destruct (kind_of_read _ _ _ _ _ _ R) as (HS & HV & vs & oc & ->).
  destruct (track_of_shaped _ HS HV) as [[i file] HT]. destruct (listed_track_of_shaped _ HS HV) as [[i' [a title]] HL].
  pose proof (c66_read _ _ _ _ _ _ R) as (vs' & oc' & E & _ & _ & _ & HP). injection E as <- <-. cbn [row_pointers] in HP. destruct oc as [c|]; [|contradiction HP].
  cbn [track_of_row listed_track_of_row] in HT, HL.
  destruct (nth_error vs 20) as [[x| | | | |]|] eqn:E20; try discriminate HT. destruct (nth_error (oa_items c) 20) as [s20|] eqn:F20; [|discriminate HT]. injection HT as -> ->.
  destruct (nth_error vs 19) as [[y| | | | |]|] eqn:E19; try discriminate HL. destruct (nth_error (oa_items c) 17) as [s17|] eqn:F17; [|discriminate HL]. injection HL as <- -> ->.
  exists i, a, title, file, (oa_items c). cbn [track_of_row listed_track_of_row]. rewrite E20, E19, F20, F17.
  split; [reflexivity|]. split; [reflexivity|]. split; [exact (stored _ _ _ _ _ _ _ 20 i _ R eq_refl E20 eq_refl)|]. split; [exact (stored _ _ _ _ _ _ _ 19 a _ R eq_refl E19 eq_refl)|].
  split; [exact HP|]. split; assumption.
Qed.
Print Assumptions c55_track_stored.
(** An artist: its number is at 4, the name is the only string that the row points to. *)
Theorem c76_artist_stored : forall rs buf pos r p, rd_row rs (PT KArtist) buf pos = Ok (r, p) -> exists i name,
  artist_of_row r = Some (i, name) /\ number buf (pos + 4) 4 = Some i /\ pointed rs buf pos 8 1 [name].
Proof.
  intros rs buf pos r p R. destruct (kind_of_read _ _ _ _ _ _ R) as (HS & HV & vs & oc & ->). destruct (artist_of_shaped _ HS HV) as [[i name] HT].
  pose proof (c66_read _ _ _ _ _ _ R) as (vs' & oc' & E & _ & _ & _ & HP). injection E as <- <-. cbn [row_pointers] in HP. destruct oc as [c|]; [|contradiction HP].
  exists i, name. split; [exact HT|]. cbn [artist_of_row] in HT. destruct (nth_error vs 2) as [[x| | | | |]|] eqn:E2; try discriminate HT.
  destruct (nth_error (oa_items c) 0) as [s|] eqn:F0; [|discriminate HT]. injection HT as -> ->. split; [exact (stored _ _ _ _ _ _ _ 2 i _ R eq_refl E2 eq_refl)|].
  assert (oa_items c = [name]) as <-; [|exact HP]. destruct HP as (_ & _ & _ & HL & _). destruct (oa_items c) as [|d [|]]; try easy. now injection F0 as ->.
Qed.
Print Assumptions c76_artist_stored.
Definition ex_entry : list N := le_enc 4 7 ++ le_enc 4 100 ++ le_enc 4 3.
Example c55_example_stored : exists r p, rd_row (rd_dstr Debug) (PT KPlaylistEntry) ex_entry 0 = Ok (r, p) /\ pentry_of_row r = Some (mk_pentry 7 100 3).
Proof. eexists _, _. split; vm_compute; reflexivity. Qed.
Definition ex_node : list N := le_enc 4 1 ++ le_enc 4 0 ++ le_enc 4 5 ++ le_enc 4 2 ++ le_enc 4 1 ++ [5; 65].
Example c52_example_stored : exists r p, rd_row (rd_dstr Debug) (PT KPlaylistTreeNode) ex_node 0 = Ok (r, p) /\ node_of_row r = Some (mk_node 1 2 1 (DSShort [65])).
Proof. eexists _, _. split; vm_compute; reflexivity. Qed.
Definition ex_artist : list N := le_enc 2 0x60 ++ le_enc 2 0 ++ le_enc 4 9 ++ [3; 10] ++ [5; 66].
Example c76_example_stored : exists r p, rd_row (rd_dstr Debug) (PT KArtist) ex_artist 0 = Ok (r, p) /\ artist_of_row r = Some (9, DSShort [66]).
Proof. eexists _, _. split; vm_compute; reflexivity. Qed.
