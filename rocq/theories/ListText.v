(** * The text of the playlist listing: src/main.rs:126-177, src/pdb/string.rs:146-172 *)
From Coq Require Import NArith ZArith List Bool Lia String.
From Coq Require Import ZifyBool ZifyNat ZifyN.
From Verif Require Import Base BaseFacts Utf UtfFacts Str Cli Player Xml XmlFacts XmlRead.
Import ListNotations.
Local Close Scope string_scope.
Open Scope N_scope.

(** ** Model *)

(** [String::from_utf16_lossy]: each unpaired surrogate becomes U+FFFD. *)
Fixpoint utf16_lossy (us : list N) : list N :=
  match us with
  | [] => []
  | u :: r =>
    if in_range 0xD800 0xDBFF u then
      match r with
      | [] => [replacement]
      | v :: r' => if in_range 0xDC00 0xDFFF v then 0x10000 + (u - 0xD800) * 1024 + (v - 0xDC00) :: utf16_lossy r' else replacement :: utf16_lossy r
      end
    else if in_range 0xDC00 0xDFFF u then replacement :: utf16_lossy r
    else u :: utf16_lossy r
  end.
(** [Display] of a string, src/pdb/string.rs:146-172, as UTF-8; [None] is the panic of [expect].  [NullString] of binrw shows wrong UTF-8 as U+FFFD. *)
Definition dstr_show (d : dstr) : option (list N) :=
  match d with
  | DSShort v | DSAscii v => match utf8_dec v with Some _ => Some v | None => None end
  | DSIsrc v => Some (display v)
  | DSUcs2 us => Some (utf8_enc (utf16_lossy us))
  end.
Definition show_text (d : dstr) : list N := match dstr_show d with Some t => t | None => [] end.
(** [print_track], main.rs:126-149; [Debug] of [TrackId] and [ArtistId] (src/pdb/mod.rs:867-871, 906-910) is derived. *)
Definition track_text (t : tline) : list N :=
  match t with
  | TMissing id => bytes_of "<Track for TrackId(" ++ show_N id ++ bytes_of ") not found>"
  | TNoArtist a title => bytes_of "<Artist for ArtistId(" ++ show_N a ++ bytes_of ") not found> - " ++ show_text title
  | TFound name title => show_text name ++ bytes_of " - " ++ show_text title
  end.
(** main.rs:161-173; the symbols are U+1F5C0, U+1F5CE and U+266B. *)
Definition line_text (l : line) : list N :=
  match l with
  | LNode level folder name => List.concat (repeat (bytes_of "    ") level) ++ utf8_enc [if folder then 0x1F5C0 else 0x1F5CE] ++ bytes_of " " ++ show_text name ++ [10]
  | LTrack level index t => List.concat (repeat (bytes_of "    ") level) ++ bytes_of "  " ++ utf8_enc [0x266B] ++ bytes_of " " ++ show_N index ++ bytes_of ": " ++ track_text t ++ [10]
  end.
(** What is on the standard output; of a line in which [Display] panics the beginning may follow, which is not modelled. *)
Definition listing_text (o : output) : list N := flat_map line_text (fst o).

(** ** Strings *)
Lemma show_panics d : dstr_show d = None <-> dstr_display_panics d = true.
Proof. destruct d as [v|v|v|us]; cbn; try easy; now destruct (utf8_dec v). Qed.
Lemma utf8_dec_inv bs : forall s, utf8_dec bs = Some s -> utf8_enc s = bs.
Proof.
  assert (forall o c p r s, utf8_enc1 c = p -> (forall t, o = Some t -> utf8_enc t = r) -> option_map (cons c) o = Some s -> utf8_enc s = p ++ r) as HM.
  { intros [t|] c p r s HC HO; cbn [option_map]; [intros [= <-]|easy]. cbn [utf8_enc flat_map]. fold (utf8_enc t). now rewrite HC, (HO t eq_refl). }
  induction bs as [|b0 r0 IH] using short_ind; intros s; [cbn; intros [= <-]; reflexivity|]. cbn [utf8_dec].
  pose proof (IH O) as I0. cbn [skipn] in I0. destruct (b0 <? 128) eqn:E0; [apply (HM _ _ [b0] r0); [unfold utf8_enc1; now rewrite E0|easy]|].
  destruct r0 as [|b1 r1]; [easy|]. pose proof (IH 1%nat) as I1. cbn [skipn] in I1. unfold in_range.
  destruct ((0xC2 <=? b0) && (b0 <=? 0xDF)) eqn:E2.
  { destruct ((0x80 <=? b1) && (b1 <=? 0xBF)) eqn:F1; [|easy]; apply (HM _ _ [b0; b1] r1); [|easy]. unfold utf8_enc1.
    replace ((b0 - 0xC0) * 64 + (b1 - 0x80) <? 0x80) with false by lia. replace ((b0 - 0xC0) * 64 + (b1 - 0x80) <? 0x800) with true by lia. repeat f_equal; lia. }
  destruct r1 as [|b2 r2]; [easy|]. pose proof (IH 2%nat) as I2. cbn [skipn] in I2.
  destruct ((0xE0 <=? b0) && (b0 <=? 0xEF)) eqn:E3.
  { destruct (((if b0 =? 0xE0 then 0xA0 else 0x80) <=? b1) && (b1 <=? (if b0 =? 0xED then 0x9F else 0xBF)) && ((0x80 <=? b2) && (b2 <=? 0xBF))) eqn:F1; [|easy]. apply (HM _ _ [b0; b1; b2] r2); [|easy].
    assert (0x80 <= b1 <= 0xBF /\ 0x80 <= b2 <= 0xBF /\ (b0 = 0xE0 -> 0xA0 <= b1)) as (B1 & B2 & B3) by (destruct (b0 =? 0xE0) eqn:G1; destruct (b0 =? 0xED) eqn:G2; lia). unfold utf8_enc1.
    set (c := (b0 - 0xE0) * 4096 + (b1 - 0x80) * 64 + (b2 - 0x80)).
    replace (c <? 0x80) with false by (unfold c; lia). replace (c <? 0x800) with false by (unfold c; lia). replace (c <? 0x10000) with true by (unfold c; lia). unfold c. repeat f_equal; lia. }
  destruct r2 as [|b3 r3]; [easy|]. pose proof (IH 3%nat) as I3. cbn [skipn] in I3.
  destruct ((0xF0 <=? b0) && (b0 <=? 0xF4)) eqn:E4; [|easy].
  destruct (((if b0 =? 0xF0 then 0x90 else 0x80) <=? b1) && (b1 <=? (if b0 =? 0xF4 then 0x8F else 0xBF)) && ((0x80 <=? b2) && (b2 <=? 0xBF)) && ((0x80 <=? b3) && (b3 <=? 0xBF))) eqn:F1; [|easy].
  apply (HM _ _ [b0; b1; b2; b3] r3); [|easy].
  assert (0x80 <= b1 <= 0xBF /\ 0x80 <= b2 <= 0xBF /\ 0x80 <= b3 <= 0xBF /\ (b0 = 0xF0 -> 0x90 <= b1)) as (B1 & B2 & B4 & B3) by (destruct (b0 =? 0xF0) eqn:G1; destruct (b0 =? 0xF4) eqn:G2; lia). unfold utf8_enc1.
  set (c := (b0 - 0xF0) * 262144 + (b1 - 0x80) * 4096 + (b2 - 0x80) * 64 + (b3 - 0x80)).
  replace (c <? 0x80) with false by (unfold c; lia). replace (c <? 0x800) with false by (unfold c; lia). replace (c <? 0x10000) with false by (unfold c; lia). unfold c. repeat f_equal; lia.
Qed.
Lemma utf16_lossy_dec us : forall s, utf16_dec us = Some s -> utf16_lossy us = s.
Proof.
  assert (forall (o : option (list N)) c s r, (forall t, o = Some t -> r = t) -> option_map (cons c) o = Some s -> c :: r = s) as HM by (intros [t|] c s r H; cbn [option_map]; [intros [= <-]; now rewrite (H t)|easy]).
  induction us as [|u r IH] using short_ind; intros s; [cbn; now intros [= <-]|]. cbn [utf16_dec utf16_lossy]. destruct (in_range 0xD800 0xDBFF u).
  - destruct r as [|v r]; [easy|]. destruct (in_range 0xDC00 0xDFFF v); [|easy]. apply HM. exact (IH 1%nat).
  - destruct (in_range 0xDC00 0xDFFF u); [easy|]. apply HM. exact (IH O).
Qed.
Lemma show_string d s : dstr_into_string d = inl s -> dstr_show d = Some (utf8_enc s).
Proof.
  destruct d as [v|v|v|us]; cbn [dstr_into_string dstr_show]; intro E.
  - destruct (utf8_dec v) as [t|] eqn:D; [|easy]. injection E as <-. now rewrite (utf8_dec_inv v t D).
  - destruct (utf8_dec v) as [t|] eqn:D; [|easy]. injection E as <-. f_equal. rewrite (utf8_dec_inv v t D). apply display_same. exists t. split; [now apply utf8_dec_ok in D|]. now rewrite (utf8_dec_inv v t D).
  - destruct (utf8_dec v) as [t|] eqn:D; [|easy]. injection E as <-. now rewrite (utf8_dec_inv v t D).
  - destruct (utf16_dec us) as [t|] eqn:D; [|easy]. injection E as <-. now rewrite (utf16_lossy_dec us t D).
Qed.

(** ** Spec: what a line of the listing says *)
Inductive seen := SNode (level : nat) (folder : bool) (name : list N) | STrack (level : nat) (index : N) (what : list N).
Definition folder_mark : list N := [240; 159; 151; 128].
Definition playlist_mark : list N := [240; 159; 151; 142].
Definition note_mark : list N := [226; 153; 171].
(** Four spaces for each level, a symbol, a space, the name; or four spaces for each level and two more, a symbol, a space, the number in decimal digits, a colon, a space, the track. *)
Inductive reads : list N -> seen -> Prop :=
| reads_folder k name : reads (repeat 32 (4 * k) ++ folder_mark ++ 32 :: name) (SNode k true name)
| reads_playlist k name : reads (repeat 32 (4 * k) ++ playlist_mark ++ 32 :: name) (SNode k false name)
| reads_track k ds i what : digits_of ds i -> reads (repeat 32 (4 * k + 2) ++ note_mark ++ 32 :: ds ++ 58 :: 32 :: what) (STrack k i what).
(** What is said about a track.  The artist ends at the first " - ". *)
Inductive told := Unknown (track : N) | ByUnknown (artist : N) (title : list N) | By (artist title : list N).
Definition no_artist (ds : list N) : list N := bytes_of "<Artist for ArtistId(" ++ ds ++ bytes_of ") not found>".
Definition dash : list N := [32; 45; 32].
Definition undashed (artist : list N) : Prop := forall x y, artist ++ dash = x ++ dash ++ y -> y = [].
Inductive tells : list N -> told -> Prop :=
| tells_unknown ds t : digits_of ds t -> tells (bytes_of "<Track for TrackId(" ++ ds ++ bytes_of ") not found>") (Unknown t)
| tells_by_unknown ds a title : digits_of ds a -> tells (no_artist ds ++ dash ++ title) (ByUnknown a title)
| tells_by artist title : undashed artist -> (forall ds a, digits_of ds a -> artist <> no_artist ds) -> tells (artist ++ dash ++ title) (By artist title).

(** ** Each line says one thing *)
Lemma repeat_front (n m : nat) x a b (r s : list N) : a <> x -> b <> x -> repeat x n ++ a :: r = repeat x m ++ b :: s -> n = m /\ a = b /\ r = s.
Proof.
  intros NA NB. revert m. induction n as [|n IH]; intros [|m] E; cbn [repeat List.app] in E.
  - now injection E as -> ->.
  - injection E as E _. now apply NA in E.
  - injection E as E _. symmetry in E. now apply NB in E.
  - injection E as E. now apply IH in E as (-> & -> & ->).
Qed.
Lemma digits_end c ds ds' r r' : ~ digit c -> Forall digit ds -> Forall digit ds' -> ds ++ c :: r = ds' ++ c :: r' -> ds = ds' /\ r = r'.
Proof.
  intros NC. revert ds'. induction ds as [|d ds IH]; intros [|d' ds'] F F' E; cbn [List.app] in E.
  - now injection E as ->.
  - injection E as -> _. now inversion F'; subst.
  - injection E as -> _. now inversion F; subst.
  - injection E as -> E. inversion F; inversion F'; subst. apply IH in E as [-> ->]; easy.
Qed.
Lemma reads_fun l x y : reads l x -> reads l y -> x = y.
Proof.
  intros H H'. unfold folder_mark, playlist_mark, note_mark in *.
  destruct H as [k n|k n|k ds i w D]; inversion H' as [k' n' E|k' n' E|k' ds' i' w' D' E]; unfold folder_mark, playlist_mark, note_mark in E; cbn [List.app] in E; subst;
    apply repeat_front in E as (EK & E1 & E); try discriminate.
  - injection E as ->. f_equal. lia.
  - injection E as ->. f_equal. lia.
  - injection E as E. apply digits_end in E as [-> E]; [|unfold digit; lia|apply D'|apply D]. injection E as ->. destruct D as (_ & _ & ->), D' as (_ & _ & ->). f_equal. lia.
Qed.
Lemma undashed_first a t a' t' : undashed a -> undashed a' -> a ++ dash ++ t = a' ++ dash ++ t' -> a = a' /\ t = t'.
Proof.
  assert (forall a t a' t' : list N, a ++ dash ++ t = a' ++ dash ++ t' -> (List.length a < List.length a')%nat -> exists y, y <> [] /\ a' ++ dash = a ++ dash ++ y) as HL.
  { clear. intros a t a' t' E L. exists (skipn (List.length a + 3) (a' ++ dash)). split.
    - intro H. apply (f_equal (@List.length N)) in H. rewrite skipn_length, app_length in H. cbn in H. lia.
    - rewrite <- (firstn_skipn (List.length a + 3) (a' ++ dash)) at 1. rewrite app_assoc. f_equal.
      apply (f_equal (firstn (List.length a + 3))) in E. rewrite app_assoc, app_assoc in E. rewrite (firstn_app (List.length a + 3) (a ++ dash)) in E.
      rewrite firstn_all2 in E by (rewrite app_length; cbn; lia). replace (List.length a + 3 - List.length (a ++ dash))%nat with 0%nat in E by (rewrite app_length; cbn; lia).
      cbn [firstn] in E. rewrite app_nil_r in E. rewrite E, (firstn_app (List.length a + 3) (a' ++ dash) t'). replace (List.length a + 3 - List.length (a' ++ dash))%nat with 0%nat by (rewrite app_length; cbn; lia). cbn [firstn]. now rewrite app_nil_r. }
  intros U U' E. destruct (Nat.lt_trichotomy (List.length a) (List.length a')) as [L|[L|L]].
  - destruct (HL _ _ _ _ E L) as (y & NY & EY). now apply U' in EY.
  - assert (a = a') as <-. { apply (f_equal (firstn (List.length a))) in E. rewrite firstn_app, Nat.sub_diag, firstn_all in E. cbn [firstn] in E. rewrite app_nil_r, L, firstn_app, Nat.sub_diag, firstn_all in E. cbn [firstn] in E. now rewrite app_nil_r in E. }
    split; [easy|]. apply app_inv_head in E. now apply app_inv_head in E.
  - destruct (HL _ _ _ _ (eq_sym E) L) as (y & NY & EY). now apply U in EY.
Qed.
Lemma undashed_plain a : ~ In 45 a -> undashed a.
Proof.
  intros NI x y E. assert (List.length a + 3 = List.length x + 3 + List.length y)%nat as L by (apply (f_equal (@List.length N)) in E; rewrite !app_length in E; cbn in E; lia).
  destruct y as [|c y]; [easy|]. exfalso. cbn [List.length] in L. apply (f_equal (fun l => nth_error l (S (List.length x)))) in E.
  rewrite (nth_error_app2 x) in E by lia. replace (S (List.length x) - List.length x)%nat with 1%nat in E by lia. change (nth_error (dash ++ c :: y) 1) with (Some 45) in E.
  destruct (Nat.lt_ge_cases (S (List.length x)) (List.length a)) as [H|H].
  - rewrite nth_error_app1 in E by easy. apply nth_error_In in E. now apply NI.
  - rewrite nth_error_app2 in E by easy. replace (S (List.length x) - List.length a)%nat with 0%nat in E by lia. discriminate.
Qed.
Lemma digits_plain x ds : Forall digit ds -> ~ (48 <= x <= 57) -> ~ In x ds.
Proof. intros F N I. rewrite Forall_forall in F. apply F in I. now apply N. Qed.
Lemma in_literal x l : existsb (N.eqb x) l = false -> ~ In x l.
Proof. intros E I. assert (existsb (N.eqb x) l = true); [apply existsb_exists; exists x; split; [easy|apply N.eqb_refl]|congruence]. Qed.
Lemma no_artist_plain ds : Forall digit ds -> ~ In 45 (no_artist ds).
Proof. intros F I. unfold no_artist in I. rewrite !in_app_iff in I. destruct I as [I|[I|I]]; revert I; [now apply in_literal|apply digits_plain; [easy|lia]|now apply in_literal]. Qed.
Lemma literal_digits ds ds' p q c r : ~ digit c -> Forall digit ds -> Forall digit ds' -> r = c :: q -> p ++ ds ++ r = p ++ ds' ++ r -> ds = ds'.
Proof. intros NC F F' -> E. apply app_inv_head in E. now apply digits_end in E as [-> _]. Qed.
Lemma tells_fun l x y : tells l x -> tells l y -> x = y.
Proof.
  assert (forall ds a title, Forall digit ds -> bytes_of "<Track for TrackId(" ++ ds ++ bytes_of ") not found>" = a ++ dash ++ title -> False) as HT.
  { intros ds a title F E. assert (In 45 (a ++ dash ++ title)) as I by (rewrite !in_app_iff; right; left; right; now left). rewrite <- E in I. rewrite !in_app_iff in I.
    destruct I as [I|[I|I]]; revert I; [now apply in_literal|apply digits_plain; [easy|lia]|now apply in_literal]. }
  intros H H'. assert (exists l', tells l' y /\ l' = l) as (l' & H0 & E) by (now exists l). clear H'.
  destruct H as [ds t D|ds a ti D|ar ti U NA]; destruct H0 as [ds' t' D'|ds' a' ti' D'|ar' ti' U' NA'].
  - f_equal. apply (literal_digits _ _ _ (tl (bytes_of ") not found>")) 41) in E; [|unfold digit; lia|apply D'|apply D|reflexivity]. subst ds'. destruct D as (_ & _ & ->), D' as (_ & _ & ->). easy.
  - symmetry in E. destruct (HT _ _ _ (proj1 (proj2 D)) E).
  - symmetry in E. destruct (HT _ _ _ (proj1 (proj2 D)) E).
  - destruct (HT _ _ _ (proj1 (proj2 D')) E).
  - apply undashed_first in E as [E ->]; [|apply undashed_plain, no_artist_plain, D'|apply undashed_plain, no_artist_plain, D]. unfold no_artist in E.
    apply (literal_digits _ _ _ (tl (bytes_of ") not found>")) 41) in E; [|unfold digit; lia|apply D'|apply D|reflexivity]. subst ds'. destruct D as (_ & _ & ->), D' as (_ & _ & ->). easy.
  - apply undashed_first in E as [E ->]; [|easy|apply undashed_plain, no_artist_plain, D]. now apply (NA' ds a D) in E.
  - destruct (HT _ _ _ (proj1 (proj2 D')) E).
  - apply undashed_first in E as [E ->]; [|apply undashed_plain, no_artist_plain, D'|easy]. symmetry in E. now apply (NA ds' a' D') in E.
  - now apply undashed_first in E as [-> ->].
Qed.

(** ** The lines that are written *)
Definition seen_of (l : line) : seen := match l with LNode k f n => SNode k f (show_text n) | LTrack k i t => STrack k i (track_text t) end.
Lemma show_N_digits n : digits_of (show_N n) n.
Proof. apply magnitude_iff. apply magnitude_show. Qed.
Lemma concat_spaces k : List.concat (repeat (bytes_of "    ") k) = repeat 32 (4 * k).
Proof. induction k as [|k IH]; [easy|]. replace (4 * S k)%nat with (4 + 4 * k)%nat by lia. cbn [repeat List.concat]. rewrite IH, repeat_app. reflexivity. Qed.
Lemma line_reads l : exists t, line_text l = t ++ [10] /\ reads t (seen_of l).
Proof.
  destruct l as [k f n|k i t]; cbn [line_text seen_of]; rewrite concat_spaces.
  - destruct f; eexists; (split; [|constructor]); rewrite <- !app_assoc; reflexivity.
  - eexists. split; [|apply reads_track, show_N_digits]. replace (4 * k + 2)%nat with (4 * k + 2)%nat by easy. rewrite repeat_app, <- !app_assoc. cbn [List.app]. rewrite <- app_assoc. reflexivity.
Qed.
