(** * Property C93: the text of the playlist listing can be read back *)
From Coq Require Import NArith ZArith List Bool Lia String.
From Coq Require Import ZifyBool ZifyNat ZifyN.
From Verif Require Import Base BaseFacts Utf UtfFacts Str Setting Device Cli CliList Listing Player Xml XmlFacts XmlRead ListText PropListing PropPlayer.
Import ListNotations.
Local Close Scope string_scope.
Open Scope N_scope.

(** C93.  A string is shown as its text, in UTF-8.  Where [into_string] fails, the listing panics (ASCII that is not UTF-8) or shows U+FFFD. *)
Theorem c93_string : forall d, (forall s, dstr_into_string d = inl s -> dstr_show d = Some (utf8_enc s)) /\ (dstr_show d = None <-> dstr_display_panics d = true).
Proof. intro d. split; [apply show_string|apply show_panics]. Qed.
Print Assumptions c93_string.
(** The names and tracks of a listing have no line feed in them. *)
Definition one_line (x : seen) : Prop := match x with SNode _ _ t | STrack _ _ t => ~ In 10 t end.
(** Then the text, cut at line feeds, is one line for each node and each track, and each line says which one: level, kind and name, or level, number and track ... *)
Theorem c93_lines : forall o, Forall (fun l => one_line (seen_of l)) (fst o) -> exists ts, cut (listing_text o) = ts ++ [[]] /\ Forall2 reads ts (map seen_of (fst o)).
Proof.
  intros [ls p] H. unfold listing_text. cbn [fst] in *. induction H as [|l ls H _ (ts & E & F)]; [exists []; split; [reflexivity|constructor]|].
  destruct (line_reads l) as (t & ET & R). exists (t :: ts). cbn [flat_map map]. split; [|now constructor]. rewrite ET, <- app_assoc. cbn [List.app]. rewrite cut_line; [now rewrite E|].
  clear -H R. intro I. inversion R as [k n E1 E2|k n E1 E2|k ds i w D E1 E2]; subst; rewrite <- E2 in H; cbn [one_line] in H; unfold folder_mark, playlist_mark, note_mark in I; cbn [List.app] in I;
    rewrite in_app_iff in I; (destruct I as [I|I]; [apply repeat_spec in I; lia|]); cbn [In] in I; repeat (destruct I as [I|I]; [lia|]); [easy|easy|].
  rewrite in_app_iff in I. destruct I as [I|I]; [revert I; apply digits_plain; [apply D|lia]|]. cbn [In] in I. repeat (destruct I as [I|I]; [lia|]). easy.
Qed.
Print Assumptions c93_lines.
(** ... and nothing else: no line can be read in two ways. *)
Theorem c93_reads : forall l x y, reads l x -> reads l y -> x = y.
Proof. exact reads_fun. Qed.
Print Assumptions c93_reads.
(** What is said about a track: that it does not exist, or its title and that its artist does not exist, or its title and the artist, who ends at the first " - ". *)
Theorem c93_track : forall t, match t with
  | TMissing i => tells (track_text t) (Unknown i)
  | TNoArtist a title => tells (track_text t) (ByUnknown a (show_text title))
  | TFound name title => undashed (show_text name) -> (forall ds a, digits_of ds a -> show_text name <> no_artist ds) -> tells (track_text t) (By (show_text name) (show_text title))
  end.
Proof.
  intros [i|a title|name title]; cbn [track_text].
  - apply tells_unknown, show_N_digits.
  - pose proof (tells_by_unknown (show_N a) a (show_text title) (show_N_digits a)) as H. unfold no_artist in H. rewrite <- !app_assoc in H. exact H.
  - intros U N. exact (tells_by _ (show_text title) U N).
Qed.
Print Assumptions c93_track.
Theorem c93_tells : forall l x y, tells l x -> tells l y -> x = y.
Proof. exact tells_fun. Qed.
Print Assumptions c93_tells.
(** So two outputs with the same text have the same nodes and tracks ... *)
Theorem c93_same : forall o o', Forall (fun l => one_line (seen_of l)) (fst o) -> Forall (fun l => one_line (seen_of l)) (fst o') -> listing_text o = listing_text o' -> map seen_of (fst o) = map seen_of (fst o').
Proof.
  intros o o' H H' E. destruct (c93_lines o H) as (ts & E1 & F1). destruct (c93_lines o' H') as (ts' & E2 & F2). rewrite E, E2 in E1. apply app_inv_tail in E1 as ->.
  clear -F1 F2. revert F2. generalize (map seen_of (fst o')). induction F1 as [|l x ls xs R F IH]; intros ys F'; inversion F' as [|? y ? ys' R' F'']; subst; [easy|]. f_equal; [now apply (reads_fun l)|now apply IH].
Qed.
Print Assumptions c93_same.
(** ... and the rows [v], [v'] of two files (with their levels, as in [c76_lines]) have the same levels, kinds and names if the listings of the files have the same text and can be shown to the end. *)
Definition nodes : list seen -> list (nat * bool * list N) := flat_map (fun x => match x with SNode k f n => [(k, f, n)] | STrack _ _ _ => [] end).
Lemma nodes_app a b : nodes (a ++ b) = nodes a ++ nodes b.
Proof. apply flat_map_app. Qed.
Definition what (x : nat * node) : nat * bool * list N := (fst x, nd_folder (snd x), show_text (nd_name (snd x))).
Theorem c93_tree : forall es arts trs v ls es' arts' trs' v' ls', Forall2 (node_lines es arts trs) v ls -> Forall2 (node_lines es' arts' trs') v' ls' ->
  let o := shown (List.concat ls) in let o' := shown (List.concat ls') in snd o = false -> snd o' = false ->
  Forall (fun l => one_line (seen_of l)) (fst o) -> Forall (fun l => one_line (seen_of l)) (fst o') -> listing_text o = listing_text o' -> map what v = map what v'.
Proof.
  assert (forall l, snd (shown l) = false -> fst (shown l) = map snd l) as HS.
  { intros l. unfold shown. cbn [fst snd]. induction l as [|x l IH]; [easy|]. cbn [existsb before_bad]. destruct (bad x); [easy|]. cbn [orb map]. intro E. now rewrite IH. }
  assert (forall es arts trs v ls, Forall2 (node_lines es arts trs) v ls -> nodes (map seen_of (map snd (List.concat ls))) = map what v) as HN.
  { intros es arts trs v ls F. induction F as [|x l v ls H F IH]; [easy|]. cbn [List.concat map]. rewrite !map_app, nodes_app. transitivity (nodes (map seen_of (map snd l)) ++ map what v); [apply f_equal; exact IH|]. destruct H as (ps & ms & -> & _ & _ & FT).
    cbn [map snd seen_of]. assert (nodes (map seen_of (map snd ms)) = []) as EN; [|change (what x :: nodes (map seen_of (map snd ms)) ++ map what v = what x :: map what v); now rewrite EN].
    clear -FT. induction FT as [|y it ps ms T _ IH]; [easy|]. destruct T; exact IH. }
  intros es arts trs v ls es' arts' trs' v' ls' F F' o o' P P' L L' E. pose proof (c93_same o o' L L' E) as ES. unfold o, o' in ES. rewrite (HS _ P), (HS _ P') in ES.
  rewrite <- (HN _ _ _ _ _ F), <- (HN _ _ _ _ _ F'). now rewrite ES.
Qed.
Print Assumptions c93_tree.

(** The file of C76 *)
Definition c93_expected : list N :=
  folder_mark ++ bytes_of " Sets" ++ [10] ++ bytes_of "    " ++ playlist_mark ++ bytes_of " Deep" ++ [10] ++
  bytes_of "      " ++ note_mark ++ bytes_of " 1: <Artist for ArtistId(8) not found> - Two" ++ [10] ++ bytes_of "      " ++ note_mark ++ bytes_of " 2: Ann - One" ++ [10] ++
  playlist_mark ++ bytes_of " Mix" ++ [10] ++ bytes_of "  " ++ note_mark ++ bytes_of " 1: <Track for TrackId(42) not found>" ++ [10].
Example c93_example : exists o, list_playlists Debug 4 c76_io = Some (Done o) /\ listing_text o = c93_expected /\ Forall (fun l => one_line (seen_of l)) (fst o) /\ undashed (bytes_of "Ann") /\
  (forall ds a, digits_of ds a -> bytes_of "Ann" <> no_artist ds) /\ map seen_of (fst o) =
  [SNode 0 true (bytes_of "Sets"); SNode 1 false (bytes_of "Deep"); STrack 1 1 (bytes_of "<Artist for ArtistId(8) not found> - Two"); STrack 1 2 (bytes_of "Ann - One"); SNode 0 false (bytes_of "Mix");
   STrack 0 1 (bytes_of "<Track for TrackId(42) not found>")].
Proof.
  eexists. split; [vm_compute; reflexivity|]. split; [vm_compute; reflexivity|]. split.
  { cbn [fst]. repeat (apply Forall_cons || apply Forall_nil); cbn [seen_of one_line]; apply in_literal; vm_compute; reflexivity. }
  split; [apply undashed_plain, in_literal; reflexivity|]. split; [intros ds a _; discriminate|]. vm_compute. reflexivity.
Qed.
(** Names with a line feed forge lines, artists with a dash are confused with titles, and strings that are not UTF-16 look like others: different rows, the same text. *)
Example c93_forged_refuted : let two := [mk_node 0 1 0 (DSShort (bytes_of "A")); mk_node 0 2 0 (DSShort (bytes_of "B"))] in let one := [mk_node 0 1 0 (DSShort (bytes_of "A" ++ [10] ++ playlist_mark ++ bytes_of " B"))] in
  exists o o', print_children 3 (by_parent two) [] [] [] 0 0 = Some o /\ print_children 3 (by_parent one) [] [] [] 0 0 = Some o' /\ listing_text o = listing_text o' /\ map seen_of (fst o) <> map seen_of (fst o').
Proof. cbv zeta. eexists _, _. split; [vm_compute; reflexivity|]. split; [vm_compute; reflexivity|]. split; [vm_compute; reflexivity|]. vm_compute. discriminate. Qed.
Example c93_dash_refuted : let a := TFound (DSShort (bytes_of "A - B")) (DSShort (bytes_of "C")) in let a' := TFound (DSShort (bytes_of "A")) (DSShort (bytes_of "B - C")) in
  track_text a = track_text a' /\ tells (track_text a) (By (bytes_of "A") (bytes_of "B - C")).
Proof. cbv zeta. split; [reflexivity|]. apply (c93_track (TFound (DSShort (bytes_of "A")) (DSShort (bytes_of "B - C")))); [apply undashed_plain, in_literal; reflexivity|]. intros ds a _. discriminate. Qed.
Example c93_lossy_refuted : exists us us', us <> us' /\ dstr_show (DSUcs2 us) = dstr_show (DSUcs2 us') /\ dstr_into_string (DSUcs2 us) = inr Encoding /\ exists s, dstr_into_string (DSUcs2 us') = inl s.
Proof. exists [0xD800; 65], [0xFFFD; 65]. split; [discriminate|]. split; [reflexivity|]. split; [reflexivity|]. eexists. reflexivity. Qed.
