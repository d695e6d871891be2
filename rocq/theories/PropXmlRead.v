(** * C83: what is read from an XML document is exactly what its attributes and elements say *)
From Coq Require Import NArith ZArith List Bool Lia String Ascii.
From Coq Require Import ZifyBool ZifyNat ZifyN Permutation.
From Verif Require Import Xml XmlFacts XmlDoc XmlRead.
Import ListNotations.
Local Close Scope string_scope.
Open Scope N_scope.

(** A track is read from an element iff each attribute of the table is there with a text that stands for the value, or is optional and
    absent, and the tempos and marks each form one block.  Floating point numbers: any reader. *)
Theorem c83_track : forall F (readF : text -> option F) e t, proper e -> (read_track F readF e = XOk t <-> is_track F readF e t).
Proof. intros. now apply read_track_iff. Qed.
Print Assumptions c83_track.

Theorem c83_node : forall e t, proper e -> plain e -> (read_node e = XOk t <-> is_node e t).
Proof. intros. now apply read_node_iff. Qed.
Print Assumptions c83_node.

Theorem c83_document : forall F (readF : text -> option F) e d, proper e -> plain_doc e -> (read_doc F readF e = XOk d <-> is_doc F readF e d).
Proof. intros. now apply read_doc_iff. Qed.
Print Assumptions c83_document.

(** The order of attributes does not matter. *)
Theorem c83_order : forall F (readF : text -> option F) tag attrs attrs' cs t, Permutation attrs attrs' -> proper (El tag attrs cs) ->
  (read_track F readF (El tag attrs cs) = XOk t <-> read_track F readF (El tag attrs' cs) = XOk t).
Proof.
  intros F readF tag attrs attrs' cs t P PR. assert (proper (El tag attrs' cs)) as PR'.
  { destruct PR as [ND H]. split; [|exact H]. eapply Permutation_NoDup; [|exact ND]. now apply Permutation_map. }
  rewrite !read_track_iff by assumption. unfold is_track, tells. cbn [el_attrs el_children].
  assert (forall f v, says F readF attrs f v <-> says F readF attrs' f v) as S.
  { intros [[k s] need] v. cbn [says]. split; (intros [(x & I & H)|(N & H)]; [left; exists x; split; [|exact H]|right; split; [|exact H]]).
    - now rewrite <- P. - now rewrite <- P. - now rewrite P. - now rewrite P. }
  assert (Forall2 (says F readF attrs) track_table (t_attrs F t) <-> Forall2 (says F readF attrs') track_table (t_attrs F t)) as ->; [|easy].
  apply Forall2_swap. apply Forall_forall. auto.
Qed.
Print Assumptions c83_order.

(** Attributes that are not in the table are ignored. *)
Theorem c83_extra : forall F (readF : text -> option F) tag attrs cs k v t, proper (El tag ((k, v) :: attrs) cs) -> ~ In k (map (fun f => fst (fst f)) track_table) ->
  (read_track F readF (El tag ((k, v) :: attrs) cs) = XOk t <-> read_track F readF (El tag attrs cs) = XOk t).
Proof.
  intros F readF tag attrs cs k v t PR NI. assert (proper (El tag attrs cs)) as PR'.
  { destruct PR as [ND H]. split; [|exact H]. cbn [map] in ND. now apply NoDup_cons_iff in ND. }
  rewrite !read_track_iff by assumption. unfold is_track, tells. cbn [el_attrs el_children].
  assert (Forall2 (says F readF ((k, v) :: attrs)) track_table (t_attrs F t) <-> Forall2 (says F readF attrs) track_table (t_attrs F t)) as ->; [|easy].
  apply Forall2_swap. apply Forall_forall. intros [[k' s] need] I w. assert (k' <> k) as N by (intros ->; apply NI; apply in_map_iff; now exists (k, s, need)).
  cbn [says map fst]. split; (intros [(x & J & H)|(NJ & H)]; [left; exists x; split; [|exact H]|right; split; [|exact H]]).
  - destruct J as [[= E _]|J]; [congruence|exact J]. - intro J. apply NJ. now right. - now right. - intros [E|J]; [congruence|now apply NJ].
Qed.
Print Assumptions c83_extra.

(** A track without id or location is an error. *)
Theorem c83_missing : forall F (readF : text -> option F) e, proper e -> ~ In "TrackID"%string (map fst (el_attrs e)) \/ ~ In "Location"%string (map fst (el_attrs e)) ->
  exists err, read_track F readF e = XErr err.
Proof.
  intros F readF e PR H. destruct (read_track F readF e) as [t|err] eqn:R; [exfalso|eauto]. apply read_track_iff in R; [|exact PR]. destruct R as [R _]. unfold tells in R.
  assert (forall f, In f track_table -> exists v, says F readF (el_attrs e) f v) as G.
  { clear - R. induction R as [|f v l l' S R IH]; [easy|]. intros g [<-|I]; eauto. }
  assert (forall k s, In (needed k s) track_table -> In k (map fst (el_attrs e))) as N.
  { intros k s I. destruct (G _ I) as [v [(x & J & _)|(_ & C & _)]]; [apply in_map_iff; now exists (k, x)|discriminate C]. }
  destruct H as [H|H]; apply H; [apply (N _ (Int 32)); now left|apply (N _ Text)]. cbn [track_table In]. tauto.
Qed.
Print Assumptions c83_missing.

(** Finding: tempos with something else in between are an error, though the order of child elements carries no meaning in XML. *)
Theorem c83_separated : forall F (readF : text -> option F) tag attrs a x b y c z d, el_tag x = "TEMPO"%string -> el_tag y <> "TEMPO"%string -> el_tag z = "TEMPO"%string ->
  proper (El tag attrs (a ++ x :: b ++ y :: c ++ z :: d)) -> exists err, read_track F readF (El tag attrs (a ++ x :: b ++ y :: c ++ z :: d)) = XErr err.
Proof.
  intros F readF tag attrs a x b y c z d TX TY TZ PR. destruct (read_track F readF _) as [t|err] eqn:R; [exfalso|eauto]. apply read_track_iff in R; [|exact PR].
  destruct R as (_ & (run & (p & q & E & FR & FO) & _) & _). cbn [el_children] in E. clear - TX TY TZ E FR FO.
  assert (exists l1 l2, p ++ run ++ q = l1 ++ x :: l2 /\ exists m1 m2, l2 = m1 ++ y :: m2 /\ In z m2) as (l1 & l2 & E1 & m1 & m2 & -> & IZ).
  { exists a, (b ++ y :: c ++ z :: d). split; [now rewrite E|]. exists b, (c ++ z :: d). split; [reflexivity|]. apply in_app_iff. right. now left. }
  clear E a b c d. rewrite Forall_app in FO. destruct FO as [FP FQ].
  assert (~ In x p) as NP by (rewrite Forall_forall in FP; intro I; now apply (FP x)).
  revert l1 E1. induction p as [|u p IH]; intros l1 E1.
  2:{ destruct l1 as [|w l1]; [injection E1 as <- _; apply NP; now left|]. injection E1 as <- E1. apply (IH (Forall_inv_tail FP)) in E1; [easy|]. intro I. apply NP. now right. }
  cbn [app] in E1. clear NP FP. rewrite Forall_forall in FR, FQ.
  assert (forall l, ~ (In z l /\ exists l', q = l' ++ l)) as NZ.
  { intros l [I [l' EQ]]. apply (FQ z); [rewrite EQ; apply in_app_iff; auto|exact TZ]. }
  revert l1 E1 FR. induction run as [|r run IH]; intros l1 E1 FR.
  - cbn [app] in E1. apply (NZ m2). split; [exact IZ|]. exists (l1 ++ x :: m1 ++ [y]). rewrite E1, <- app_assoc. cbn [app]. now rewrite <- app_assoc.
  - destruct l1 as [|w l1].
    + injection E1 as <- E1. clear IH. assert (forall r', In r' run -> el_tag r' = "TEMPO"%string) as FR' by (intros; apply FR; now right). clear FR. revert m1 E1. induction run as [|s run IH]; intros m1 E1.
      * cbn [app] in E1. apply (NZ m2). split; [exact IZ|]. exists (m1 ++ [y]). now rewrite E1, <- app_assoc.
      * destruct m1 as [|v m1]; injection E1 as <- E1; [apply TY, FR'; now left|]. apply (IH (fun r' I => FR' r' (or_intror I)) m1 E1).
    + injection E1 as <- E1. apply (IH l1 E1). intros; apply FR; now right.
Qed.
Print Assumptions c83_separated.

(** ** A document *)
Definition txt (s : string) : text := map (fun a => N.of_nat (nat_of_ascii a)) (list_ascii_of_string s).
Definition read_cents (t : text) : option Z := read_int 32 t.
Definition a_track : elem :=
  El "TRACK" [("Location", txt "file://x"); ("Unknown", txt "u"); ("Year", txt "+0199"); ("TrackID", txt "-7")]%string
    [El "POSITION_MARK" [("Num", txt "0"); ("Start", txt "5"); ("Type", txt "4"); ("Name", [])]%string []; El "OTHER" [] [];
     El "TEMPO" [("Inizio", txt "1"); ("Bpm", txt "140"); ("Metro", txt "4/4"); ("Battito", txt "1")]%string [];
     El "TEMPO" [("Battito", txt "3"); ("Inizio", txt "9"); ("Bpm", txt "141"); ("Metro", txt "4/4")]%string []].
Definition a_doc : elem :=
  El "DJ_PLAYLISTS" [("Version", txt "1.0.0")]%string
    [El "PLAYLISTS" [] [El "NODE" [("Type", [48]); ("Name", txt "ROOT"); ("Count", txt "1")]%string
       [El "NODE" [("Name", txt "p"); ("KeyType", txt "0"); ("Entries", txt "01"); ("Type", [49])]%string [El "TRACK" [("Key", txt "-7")]%string []]]];
     El "COLLECTION" [("Entries", txt "1")]%string [a_track];
     El "PRODUCT" [("Version", txt "6"); ("Name", txt "r"); ("Company", txt "P")]%string []].
Ltac prop := cbn [proper fold_right map fst]; repeat (match goal with |- _ /\ _ => split | |- True => exact I | |- NoDup _ => apply nodup_strings; vm_compute; reflexivity end).
Example c83_example : proper a_doc /\ plain_doc a_doc /\
  exists d, read_doc Z read_cents a_doc = XOk d /\ is_doc Z read_cents a_doc d /\ d_nodes Z d = [XPlaylist (txt "p") (txt "0") [(-7)%Z]] /\
    exists t, d_tracks Z d = [t] /\ nth 0 (t_attrs Z t) (XNone Z) = XI Z (-7) /\ nth 12 (t_attrs Z t) (XNone Z) = XI Z 199 /\ nth 1 (t_attrs Z t) (XNone Z) = XNone Z /\
      t_tempos Z t = [[XF Z 1; XF Z 140; XS Z (txt "4/4"); XI Z 1]; [XF Z 9; XF Z 141; XS Z (txt "4/4"); XI Z 3]]%Z /\ List.length (t_marks Z t) = 1%nat.
Proof.
  assert (proper a_doc) as P by (unfold a_doc, a_track; prop).
  assert (plain_doc a_doc) as PL.
  { intros l root c IL TL IR TR IC TC. unfold a_doc in IL. cbn [el_children In] in IL. destruct IL as [<-|[<-|[<-|[]]]]; try discriminate TL. cbn [el_children In] in IR. destruct IR as [<-|[]].
    cbn [el_children In] in IC. destruct IC as [<-|[]]. cbn [plain fold_right]. split; [|split; [discriminate|exact I]].
    apply Forall_cons; [left; reflexivity|]. apply Forall_cons; [right; right; left; reflexivity|]. apply Forall_cons; [|apply Forall_cons; [right; left; reflexivity|apply Forall_nil]].
    unfold plain_attr. cbn [fst snd]. do 3 right. split; [auto|]. exists 1. split; [|lia]. exists (txt "01"). split; [now left|]. split; [discriminate|].
    split; [|reflexivity]. repeat constructor; unfold digit; vm_compute; discriminate. }
  split; [exact P|]. split; [exact PL|].
  set (r := read_doc Z read_cents a_doc). vm_compute in r. match eval unfold r in r with XOk ?d => assert (read_doc Z read_cents a_doc = XOk d) as E by (vm_compute; reflexivity); exists d end.
  split; [vm_compute; reflexivity|]. split; [now apply c83_document|]. split; [vm_compute; reflexivity|]. eexists. split; [reflexivity|]. repeat split.
Qed.
Example c83_example_missing : proper (El "TRACK" [("TrackID", txt "1")]%string []) /\ read_track Z read_cents (El "TRACK" [("TrackID", txt "1")]%string []) = XErr (XMissing "@Location").
Proof. split; [prop|reflexivity]. Qed.
Example c83_example_separated : let tempo := El "TEMPO" [("Inizio", txt "1"); ("Bpm", txt "140"); ("Metro", txt "4/4"); ("Battito", txt "1")]%string [] in
  let mark := El "POSITION_MARK" [("Num", txt "0"); ("Start", txt "5"); ("Type", txt "4"); ("Name", [])]%string [] in
  let track cs := El "TRACK" [("TrackID", txt "1"); ("Location", [])]%string cs in
  proper (track [tempo; mark; tempo]) /\ read_track Z read_cents (track [tempo; mark; tempo]) = XErr XOther /\ exists t, read_track Z read_cents (track [tempo; tempo; mark]) = XOk t.
Proof. cbv zeta. split; [prop|]. split; [vm_compute; reflexivity|]. eexists. vm_compute. reflexivity. Qed.
