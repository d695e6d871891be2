(** * Property theorems C103: databases that were cut short *)
From Coq Require Import NArith ZArith List Bool Lia.
From Coq Require Import ZifyBool ZifyNat ZifyN.
From Verif Require Import Base BaseFacts Utf Str StrGood Schema Oa Rows Page Db DbFacts DbFresh RowShape Dump DumpFacts Robust Setting Device DeviceTree Cli CliList Listing PropListing Trunc.
Import ListNotations.
Open Scope N_scope.

(** ** Spec *)
(** What may become of a good result: it stays, or there is an error of reading the file; a build with overflow checks may also panic. *)
Definition spared {A} (b : build) (x : A) (y : dres A) : Prop := y = DOk x \/ (exists e, y = DErr (DParse e)) \/ (b = Debug /\ y = DPanic).
Definition spared_cmd {A} (b : build) (x : A) (y : option (outcome A)) : Prop :=
  y = Some (Done x) \/ (exists e, y = Some (Fail (PDb (DParse e)))) \/ (b = Debug /\ y = Some Crash).
(** The length fields of the ISRC strings of a file are right: the pages are also read by the reader that checks them. *)
Definition lengths_right (b : build) (k : dbtype) (h : dbhdr) (io : list N) : Prop :=
  forall i r, i <= dh_next h - 1 -> rd_page b (rd_dstr b) (dh_page_size h) k io (i * dh_page_size h) = Ok r -> rd_page b (rd_dstr_strict b) (dh_page_size h) k io (i * dh_page_size h) = Ok r.

(** ** Pages and rows *)
Lemma pages_cut b k h io n last lo i l : bytes_ok io -> lengths_right b k h io -> table_pages b k h io last lo i l (DOk tt) -> forall l' r', table_pages b k h (takeN n io) last lo i l' r' ->
  (exists l2, l = l' ++ l2) /\ (l' = l /\ r' = DOk tt \/ (exists e, r' = DErr (DParse e)) \/ (b = Debug /\ r' = DPanic)).
Proof.
  intros HB HL HT. remember (DOk tt) as r eqn:ER. induction HT as [| | | |lo p q G1 G2 G3|lo i p q l r G1 G2 G3 G4 G5 IH]; try discriminate; intros l' r' HT'.
  - inversion HT'; subst; try lia.
    + split; [now exists [p]|]. right. left. eauto.
    + split; [now exists [p]|]. right. right. destruct b; [now split|]. exfalso. match goal with H : rd_page _ _ _ _ _ _ = Panic |- _ => revert H end. apply np_page; [apply np_dstr_release; now apply bytes_ok_takeN|now left].
    + match goal with H : rd_page _ _ _ _ (takeN _ _) _ = Ok _ |- _ => pose proof (cut_page b n _ _ _ _ (cut_dstr b n) _ _ _ _ (HL _ _ G2 G3) H) as [= -> ->] end. split; [now exists []|]. now left.
  - inversion HT'; subst; try lia.
    + split; [now exists (p :: l)|]. right. left. eauto.
    + split; [now exists (p :: l)|]. right. right. destruct b; [now split|]. exfalso. match goal with H : rd_page _ _ _ _ _ _ = Panic |- _ => revert H end. apply np_page; [apply np_dstr_release; now apply bytes_ok_takeN|now left].
    + match goal with H : rd_page _ _ _ _ (takeN _ _) _ = Ok _ |- _ => pose proof (cut_page b n _ _ _ _ (cut_dstr b n) _ _ _ _ (HL _ _ G2 G3) H) as [= -> ->] end.
      match goal with H : table_pages _ _ _ _ _ _ _ _ _ |- _ => destruct (IH eq_refl _ _ H) as [(l2 & ->) HD] end. split; [now exists l2|]. destruct HD as [[HD ->]|HD]; [left; split; [f_equal; exact HD|reflexivity]|right; exact HD].
Qed.
Lemma rows_in_ok kd l r rows : rows_in kd l r (DOk rows) -> r = DOk tt /\ Forall (fun p => Forall (of_kind kd) (page_rows p)) l /\ rows = flat_map page_rows l.
Proof.
  remember (DOk rows) as x eqn:E. intro H. revert rows E. induction H as [| | |p l r rs HP HR IH|p l r e HP HR IH|p l r HP HR IH|p l r HE]; intros rows E; try discriminate; injection E as <-; [easy|].
  destruct (IH _ eq_refl) as (-> & F & ->). now repeat constructor.
Qed.
Lemma rows_in_bad kd l x : Forall (fun p => Forall (of_kind kd) (page_rows p)) l -> (forall e, rows_in kd l (DErr e) x -> x = DErr e) /\ (rows_in kd l DPanic x -> x = DPanic).
Proof.
  intro F. revert x. induction F as [|p l HP F IH]; intro x; split; [intros e H|intro H|intros e H|intro H]; inversion H; clear H; subst; try easy.
  all: try (exfalso; match goal with H : Exists _ _ |- _ => apply Exists_exists in H as (y & I & NK) end; rewrite Forall_forall in HP; now apply NK, HP).
  all: match goal with H : rows_in _ _ _ ?y |- _ => destruct (IH y) as [I1 I2]; first [apply I1 in H|apply I2 in H]; congruence end.
Qed.
Lemma table_cut b k h io n kd rows y : bytes_ok io -> lengths_right b k h io -> table_in b k h io kd (DOk rows) -> table_in b k h (takeN n io) kd y -> spared b rows y.
Proof.
  intros HB HL H H'. inversion H as [|l1 t l2 ps r x HT H1 H2 H3 H4]; subst. inversion H' as [G|l1' t' l2' ps' r' x' GT G1 G2 G3 G4]; subst.
  - exfalso. apply (G t); [|easy]. rewrite HT. apply in_or_app. right. now left.
  - assert (t' = t) as ->. { apply (first_table l1 t l2 l1' t' l2' (fun t => tb_type t = PT kd)); try easy. congruence. }
    destruct (rows_in_ok _ _ _ _ H4) as (-> & F & ->). destruct (pages_cut _ _ _ _ n _ _ _ _ HB HL H3 _ _ G3) as [(l3 & EL) HD].
    destruct HD as [[-> ->]|HD]; [left; exact (rows_in_fun _ _ _ _ H4 _ G4)|]. rewrite EL in F. apply Forall_app in F as [F _]. right. destruct (rows_in_bad kd ps' y F) as [R1 R2].
    destruct HD as [(e & ->)|[-> ->]]; [left; exists e; now apply R1|right; split; [easy|now apply R2]].
Qed.
(** The rows that come one after the other. *)
Lemma gives_all kd l r rs y : Forall (fun p => Forall (of_kind kd) (page_rows p)) l -> gives kd l r rs y -> y = r /\ rs = flat_map page_rows l.
Proof.
  intros F H. induction H as [r|p l r rs y HP HR IH|p l r l1 x l2 E HF NX]; [easy| |].
  - inversion F; subst. destruct IH as [-> ->]; easy.
  - exfalso. inversion F as [|? ? F1 _]; subst. rewrite E in F1. apply Forall_app in F1 as [_ F1]. now inversion F1.
Qed.
Lemma stream_cut b k h io n kd rows rs y : bytes_ok io -> lengths_right b k h io -> table_in b k h io kd (DOk rows) -> table_gives b k h (takeN n io) kd rs y ->
  (exists l, rows = rs ++ l) /\ (rs = rows /\ y = DOk tt \/ (exists e, y = DErr (DParse e)) \/ (b = Debug /\ y = DPanic)).
Proof.
  intros HB HL H H'. inversion H as [|l1 t l2 ps r x HT H1 H2 H3 H4]; subst. inversion H' as [G|l1' t' l2' ps' r' rs' y' GT G1 G2 G3 G4]; subst.
  - exfalso. apply (G t); [|easy]. rewrite HT. apply in_or_app. right. now left.
  - assert (t' = t) as ->. { apply (first_table l1 t l2 l1' t' l2' (fun t => tb_type t = PT kd)); try easy. congruence. }
    destruct (rows_in_ok _ _ _ _ H4) as (-> & F & ->). destruct (pages_cut _ _ _ _ n _ _ _ _ HB HL H3 _ _ G3) as [(l3 & EL) HD].
    rewrite EL in F. apply Forall_app in F as [F _]. destruct (gives_all _ _ _ _ _ F G4) as [-> ->]. rewrite EL, flat_map_app. split; [now eexists|]. destruct HD as [[HD ->]|HD]; [left|right; exact HD].
    split; [|reflexivity]. rewrite HD in EL. assert (l3 = []) as -> by (apply (app_inv_head ps); now rewrite app_nil_r). now rewrite app_nil_r.
Qed.

(** ** The theorems *)
(** C103.  Opening the first [n] bytes of a database file fails or gives the same header. *)
Theorem c103_open : forall io k n d, db_open io k = DOk d ->
  (exists d', db_open (takeN n io) k = DOk d' /\ db_header d' = db_header d) \/ exists e, db_open (takeN n io) k = DErr (DParse e).
Proof.
  intros io k n d H. unfold db_open in *. destruct (rd_dbhdr k io 0) as [[h q]| |] eqn:E; try discriminate. injection H as <-. pose proof (np_dbhdr k (takeN n io) 0) as NP.
  destruct (rd_dbhdr k (takeN n io) 0) as [[h' q']| |] eqn:E'; [left|right; eauto|easy]. pose proof (cut_dbhdr n k _ _ _ _ E E') as [= -> ->]. eexists. split; reflexivity.
Qed.
Print Assumptions c103_open.
(** The rows of a table: none is lost or changed without an error. *)
Lemma rows_spared b io k n kd d d' rows : bytes_ok io -> fresh b io k d -> fresh b (takeN n io) k d' -> db_header d' = db_header d -> lengths_right b k (db_header d) io -> snd (iter_rows b kd d) = Some (DOk rows) ->
  exists y, snd (iter_rows b kd d') = Some y /\ spared b rows y.
Proof.
  intros HB HF HF' EH HL HR. destruct (iter_rows_spec b io k kd d HB HF) as (x & E & HT). rewrite HR in E. injection E as <-.
  destruct (iter_rows_spec b (takeN n io) k kd d' (bytes_ok_takeN _ _ HB) HF') as (y & E' & HT'). exists y. split; [exact E'|]. rewrite EH in HT'. exact (table_cut _ _ _ _ _ _ _ _ HB HL HT HT').
Qed.
Theorem c103_rows : forall b io k n d d' kd rows, bytes_ok io -> db_open io k = DOk d -> lengths_right b k (db_header d) io -> db_open (takeN n io) k = DOk d' ->
  snd (iter_rows b kd d) = Some (DOk rows) -> exists y, snd (iter_rows b kd d') = Some y /\ spared b rows y.
Proof.
  intros b io k n d d' kd rows HB HO HL HO' HR. apply (rows_spared b io k n kd d d' rows HB); try easy; try now apply open_fresh.
  destruct (c103_open io k n d HO) as [(d2 & E & EH)|(e & E)]; rewrite HO' in E; [now injection E as ->|discriminate].
Qed.
Print Assumptions c103_rows.
Lemma table_rows_spared {A} b io k n kd (f : row -> option A) d d' l : bytes_ok io -> fresh b io k d -> fresh b (takeN n io) k d' -> db_header d' = db_header d -> lengths_right b k (db_header d) io -> table_rows b kd f d = Done l ->
  (table_rows b kd f d' = Done l \/ (exists e, table_rows b kd f d' = Fail (PDb (DParse e))) \/ (b = Debug /\ table_rows b kd f d' = Crash)) /\
  fresh b io k (fst (iter_rows b kd d)) /\ fresh b (takeN n io) k (fst (iter_rows b kd d')) /\ db_header (fst (iter_rows b kd d')) = db_header (fst (iter_rows b kd d)) /\ lengths_right b k (db_header (fst (iter_rows b kd d))) io.
Proof.
  intros HB HF HF' EH HL HR. split.
  - unfold table_rows in *. destruct (snd (iter_rows b kd d)) as [[rows|e|]|] eqn:E; try discriminate. destruct (rows_spared b io k n kd d d' rows HB HF HF' EH HL E) as (y & -> & [->|[(e & ->)|[-> ->]]]); [now left|right; left; eauto|now right; right].
  - destruct (fresh_iter_rows b io k kd d HB HF) as [F1 E1]. destruct (fresh_iter_rows b (takeN n io) k kd d' (bytes_ok_takeN _ _ HB) HF') as [F2 E2]. rewrite E1, E2. easy.
Qed.
(** Listing the playlists prints the same or fails without printing anything. *)
Theorem c103_list : forall b depth io n d o, bytes_ok io -> db_open io DbPlain = DOk d -> lengths_right b DbPlain (db_header d) io ->
  list_playlists b depth io = Some (Done o) -> spared_cmd b o (list_playlists b depth (takeN n io)).
Proof.
  intros b depth io n d o HB HO HL H. unfold list_playlists in *. rewrite HO in H. destruct (c103_open io DbPlain n d HO) as [(d' & HO' & EH)|(e & HO')]; rewrite HO'; [|right; left; now exists e].
  pose proof (open_fresh b _ _ _ HO) as HF. pose proof (open_fresh b _ _ _ HO') as HF'. clear HO HO'.
  do 4 (match goal with |- context [table_rows b ?kd ?f d'] => let l := fresh "l" in destruct (table_rows b kd f d) as [l| |] eqn:E; try discriminate;
    let HR := fresh in destruct (table_rows_spared b io DbPlain n kd f d d' l HB HF HF' EH HL E) as (HR & HF1 & HF1' & EH1 & HL1);
    destruct HR as [HR|[(e & HR)|[-> HR]]]; rewrite HR; [clear HR|right; left; now exists e|now right; right] end;
    clear HF HF' EH HL E; match type of HF1 with fresh _ _ _ ?x => set (dn := x) in * end; match type of HF1' with fresh _ _ _ ?x => set (dn' := x) in * end; clearbody dn dn';
    clear d d'; rename dn into d, dn' into d', HF1 into HF, HF1' into HF', EH1 into EH, HL1 into HL; cbv zeta in * ).
  destruct (print_children _ _ _ _ _ _ _) as [x|]; [|discriminate]. cbn [option_map] in *. left. exact H.
Qed.
Print Assumptions c103_list.

(** Exporting the playlists does the same, or fails before anything is written. *)
Lemma decode_prefix l1 : forall l2 tr, decode_rows (l1 ++ l2) = Done tr -> exists tr1, decode_rows l1 = Done tr1.
Proof.
  induction l1 as [|r l1 IH]; intros l2 tr H; [now exists []|]. cbn [app decode_rows] in *. destruct (track_of_row r) as [[i s]|]; [|discriminate]. destruct (dstr_into_string s); [|discriminate].
  destruct (decode_rows (l1 ++ l2)) as [x| |] eqn:E; try discriminate. destruct (IH _ _ E) as (tr1 & ->). eauto.
Qed.
Lemma tracks_spared b io k n d d' tr : bytes_ok io -> fresh b io k d -> fresh b (takeN n io) k d' -> db_header d' = db_header d -> lengths_right b k (db_header d) io -> track_paths b d = Some (Done tr) -> spared_cmd b tr (track_paths b d').
Proof.
  intros HB HF HF' EH HL H. unfold track_paths in *. destruct (stream_total b KTrack d) as (rows & y & E & ER). rewrite E in H. destruct (decode_rows rows) as [tr0| |] eqn:ED; try discriminate. destruct y as [[]| |]; try discriminate. injection H as ->. cbn [end_of] in ER.
  destruct (iter_rows_spec b io k KTrack d HB HF) as (x & EX & HT). rewrite ER in EX. injection EX as <-. destruct (stream_spec b (takeN n io) k KTrack d' (bytes_ok_takeN _ _ HB) HF') as (rs & y & E' & HT'). rewrite E'. rewrite EH in HT'.
  destruct (stream_cut _ _ _ _ _ _ _ _ _ HB HL HT HT') as [(l & EL) HD]. rewrite EL in ED. destruct (decode_prefix _ _ _ ED) as (tr1 & ED1). rewrite ED1.
  destruct HD as [[-> ->]|[(e & ->)|[-> ->]]]; [left|right; left; now exists e|now right; right]. assert (l = []) as -> by (apply (app_inv_head rows); now rewrite app_nil_r, <- EL). rewrite app_nil_r, ED1 in ED. now injection ED as ->.
Qed.
Theorem c103_export : forall b depth io k n d d' out canon ops, bytes_ok io -> db_open io k = DOk d -> lengths_right b k (db_header d) io -> db_open (takeN n io) k = DOk d' ->
  export b depth d out canon = Some (Done ops) -> spared_cmd b ops (export b depth d' out canon).
Proof.
  intros b depth io k n d d' out canon ops HB HO HL HO' H.
  assert (db_header d' = db_header d) as EH by (destruct (c103_open io k n d HO) as [(d2 & E & EH)|(e & E)]; rewrite HO' in E; [now injection E as ->|discriminate]).
  pose proof (open_fresh b _ _ _ HO) as HF. pose proof (open_fresh b _ _ _ HO') as HF'. unfold export in *.
  destruct (get_playlists b depth d) as [[ts| |]|] eqn:EP; try discriminate. unfold get_playlists in *.
  destruct (snd (iter_rows b KPlaylistTreeNode d)) as [[rows| |]|] eqn:E; try discriminate. destruct (rows_spared b io k n _ d d' rows HB HF HF' EH HL E) as (y & -> & HY).
  destruct HY as [->|[(e & ->)|[-> ->]]]; [|right; left; now exists e|now right; right]. rewrite EP. cbv zeta in *.
  destruct (fresh_iter_rows b io k KPlaylistTreeNode d HB HF) as [F1 E1]. destruct (fresh_iter_rows b (takeN n io) k KPlaylistTreeNode d' (bytes_ok_takeN _ _ HB) HF') as [F1' E1'].
  set (d1 := fst (iter_rows b KPlaylistTreeNode d)) in *. set (d1' := fst (iter_rows b KPlaylistTreeNode d')) in *. assert (db_header d1' = db_header d1) as EH1 by congruence. assert (lengths_right b k (db_header d1) io) as HL1 by now rewrite E1.
  destruct (table_rows b KPlaylistEntry pentry_of_row d1) as [es| |] eqn:E2; try discriminate.
  destruct (table_rows_spared b io k n _ _ d1 d1' es HB F1 F1' EH1 HL1 E2) as (HR & F2 & F2' & EH2 & HL2). destruct HR as [->|[(e & ->)|[-> ->]]]; [|right; left; now exists e|now right; right].
  set (d2 := fst (iter_rows b KPlaylistEntry d1)) in *. set (d2' := fst (iter_rows b KPlaylistEntry d1')) in *.
  destruct (track_paths b d2) as [[tr| |]|] eqn:E3; try discriminate. destruct (tracks_spared b io k n d2 d2' tr HB F2 F2' EH2 HL2 E3) as [->|[(e & ->)|[-> ->]]]; [|right; left; now exists e|now right; right].
  left. exact H.
Qed.
Print Assumptions c103_export.

(** ** Examples *)
(** The file of C76: the header and four pages of 600 bytes.  Without its last byte, or with a part of the header, the listing fails; in the middle of a page, the tables in front are read as before. *)
Lemma c103_lengths : lengths_right Debug DbPlain c76_header_ex c76_io.
Proof.
  intros i r L H. assert (i = 0 \/ i = 1 \/ i = 2 \/ i = 3 \/ i = 4) as C by (change (dh_next c76_header_ex - 1) with 4 in L; lia). rewrite <- H. clear L H r.
  destruct C as [->|[->|[->|[->| ->]]]]; vm_compute; reflexivity.
Qed.
Example c103_example : len c76_io = 3000 /\ (exists o, list_playlists Debug 4 c76_io = Some (Done o)) /\ list_playlists Debug 4 (takeN 2999 c76_io) = Some (Fail (PDb (DParse EIo))) /\ list_playlists Debug 4 (takeN 50 c76_io) = Some (Fail (PDb (DParse EIo))) /\
  match db_open (takeN 2000 c76_io) DbPlain with
  | DOk d' => snd (iter_rows Debug KArtist d') = snd (iter_rows Debug KArtist c76_open) /\ (exists e, export Debug 4 d' [] [] = Some (Fail (PDb (DParse e))))
  | _ => False
  end.
Proof. split; [vm_compute; reflexivity|]. split; [eexists; vm_compute; reflexivity|]. split; [vm_compute; reflexivity|]. split; [vm_compute; reflexivity|]. vm_compute. split; [reflexivity|]. eexists. reflexivity. Qed.
(** The length fields matter: the name of this row is an ISRC string with a length field that is too small, and the row is behind the end of its page.  Cut in the middle of the name, the file
    has another name. *)
Definition c103_hdr : dbhdr := mk_dbhdr 100 1 2 0 7 [mk_table (PT KPlaylistTreeNode) 9 1 1].
Definition c103_node : row := RRow KPlaylistTreeNode [VInt 0; VInt 0; VInt 0; VInt 5; VInt 0; VStr (DSIsrc [65; 66; 67; 68])] None.
Definition c103_io : list N := Eval vm_compute in
  match flush Debug (mk_db (repeat 0 100) DbPlain c103_hdr [Some (c76_data 1 KPlaylistTreeNode [(60, c103_node)] [c76_group [60] 1])]) with DOk d => write_at (db_io d) 221 [6] | _ => [] end.
Definition c103_rows_of (io : list N) : option (dres (list row)) := match db_open io DbPlain with DOk d => snd (iter_rows Release KPlaylistTreeNode d) | _ => None end.
Theorem c103_lengths_refuted : exists io n r r', bytes_ok io /\ c103_rows_of io = Some (DOk [r]) /\ c103_rows_of (takeN n io) = Some (DOk [r']) /\ r' <> r.
Proof.
  exists c103_io, 226, c103_node, (RRow KPlaylistTreeNode [VInt 0; VInt 0; VInt 0; VInt 5; VInt 0; VStr (DSUcs2 [0x4103])] None). split.
  - apply Forall_forall. intros x Hx. assert (forallb (fun x => x <? 256) c103_io = true) as E by (vm_compute; reflexivity). rewrite forallb_forall in E. specialize (E x Hx). cbv beta in E. lia.
  - split; [vm_compute; reflexivity|]. split; [vm_compute; reflexivity|discriminate].
Qed.
Print Assumptions c103_lengths_refuted.
