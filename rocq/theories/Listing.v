(** * Listing the playlists of a file: the whole command, src/main.rs:88-189 *)
From Coq Require Import NArith ZArith List Bool Lia String Sorted Relations.
From Coq Require Import ZifyBool ZifyNat ZifyN.
From Verif Require Import Base BaseFacts Segs Utf Str Schema Oa Rows Page PageRw Db DbFacts DbFlush DbFresh RowShape Dump DumpFacts Setting Device DeviceFacts DeviceTree
  Cli CliFacts CliList.
Import ListNotations.
Local Close Scope string_scope.
Open Scope N_scope.

(** ** Model *)

(** The id and the name of an [Artist], src/pdb/mod.rs:1062-1077: field 2 and string 0 *)
Definition artist_of_row (r : row) : option (N * dstr) :=
  match r with
  | RRow KArtist vs (Some c) =>
    match nth_error vs 2, nth_error (oa_items c) 0 with Some (VInt i), Some s => Some (i, s) | _, _ => None end
  | _ => None
  end.
(** The id, the id of the artist and the title of a [Track], src/pdb/mod.rs:1695-1728 and 1736-1804: fields 20 and 19, string 17 *)
Definition listed_track_of_row (r : row) : option (N * (N * dstr)) :=
  match r with
  | RRow KTrack vs (Some c) =>
    match nth_error vs 20, nth_error vs 19, nth_error (oa_items c) 17 with
    | Some (VInt i), Some (VInt a), Some s => Some (i, (a, s))
    | _, _, _ => None
    end
  | _ => None
  end.
(** [insert] into a [HashMap], main.rs:108-116; the later row of two with the same id stays. *)
Definition insert_all {V} (l : list (N * V)) : list (N * V) := fold_left (fun m x => hm_upd m (fst x) (snd x) (fun _ => snd x)) l [].
(** main.rs:92-189, for the content of the file; [depth] bounds the recursion of [print_children_of].  An error is returned before anything
    is printed. *)
Definition list_playlists (b : build) (depth : nat) (io : list N) : option (outcome output) :=
  match db_open io DbPlain with
  | DErr e => Some (Fail (PDb e))
  | DPanic => Some Crash
  | DOk d =>
    match table_rows b KPlaylistTreeNode node_of_row d with
    | Fail e => Some (Fail e)
    | Crash => Some Crash
    | Done ns =>
      let d1 := fst (iter_rows b KPlaylistTreeNode d) in
      match table_rows b KArtist artist_of_row d1 with
      | Fail e => Some (Fail e)
      | Crash => Some Crash
      | Done arts =>
        let d2 := fst (iter_rows b KArtist d1) in
        match table_rows b KTrack listed_track_of_row d2 with
        | Fail e => Some (Fail e)
        | Crash => Some Crash
        | Done trs =>
          let d3 := fst (iter_rows b KTrack d2) in
          match table_rows b KPlaylistEntry pentry_of_row d3 with
          | Fail e => Some (Fail e)
          | Crash => Some Crash
          | Done es => option_map Done (print_children depth (by_parent ns) (entries_map es) (insert_all arts) (insert_all trs) 0 0)
          end
        end
      end
    end
  end.

(** ** Spec: the rows of a table as they are in the file *)

(** The rows of a list of pages, each in the order of the offsets; a row of another type is a panic. *)
Definition page_rows (p : page) : list row := match pg_content p with PData c => map snd (dc_rows c) | PIndex _ => [] end.
Definition of_kind (kd : rkind) (r : row) : Prop := match r with RRow k _ _ => k = kd | RUnknown => False end.
Inductive rows_in (kd : rkind) : list page -> dres unit -> dres (list row) -> Prop :=
| ri_end : rows_in kd [] (DOk tt) (DOk [])
| ri_err e : rows_in kd [] (DErr e) (DErr e)
| ri_panic : rows_in kd [] DPanic DPanic
| ri_page p l r rs : Forall (of_kind kd) (page_rows p) -> rows_in kd l r (DOk rs) -> rows_in kd (p :: l) r (DOk (page_rows p ++ rs))
| ri_page_err p l r e : Forall (of_kind kd) (page_rows p) -> rows_in kd l r (DErr e) -> rows_in kd (p :: l) r (DErr e)
| ri_page_panic p l r : Forall (of_kind kd) (page_rows p) -> rows_in kd l r DPanic -> rows_in kd (p :: l) r DPanic
| ri_other p l r : Exists (fun x => ~ of_kind kd x) (page_rows p) -> rows_in kd (p :: l) r DPanic.
(** The first table of the type counts. *)
Inductive table_in (b : build) (k : dbtype) (h : dbhdr) (io : list N) (kd : rkind) : dres (list row) -> Prop :=
| ti_none : (forall t, In t (dh_tables h) -> tb_type t <> PT kd) -> table_in b k h io kd (DErr (DTableType (PT kd)))
| ti_found l1 t l2 ps r x : dh_tables h = l1 ++ t :: l2 -> (forall t', In t' l1 -> tb_type t' <> PT kd) -> tb_type t = PT kd ->
    table_pages b k h io (tb_last t) 1 (tb_first t) ps r -> rows_in kd ps r x -> table_in b k h io kd x.

(** The rows one after the other, as they are delivered before the table ends, a page cannot be read or a row of another type comes. *)
Inductive gives (kd : rkind) : list page -> dres unit -> list row -> dres unit -> Prop :=
| gv_end r : gives kd [] r [] r
| gv_page p l r rs y : Forall (of_kind kd) (page_rows p) -> gives kd l r rs y -> gives kd (p :: l) r (page_rows p ++ rs) y
| gv_other p l r l1 x l2 : page_rows p = l1 ++ x :: l2 -> Forall (of_kind kd) l1 -> ~ of_kind kd x -> gives kd (p :: l) r l1 DPanic.
Inductive table_gives (b : build) (k : dbtype) (h : dbhdr) (io : list N) (kd : rkind) : list row -> dres unit -> Prop :=
| tg_none : (forall t, In t (dh_tables h) -> tb_type t <> PT kd) -> table_gives b k h io kd [] (DErr (DTableType (PT kd)))
| tg_found l1 t l2 ps r rs y : dh_tables h = l1 ++ t :: l2 -> (forall t', In t' l1 -> tb_type t' <> PT kd) -> tb_type t = PT kd ->
    table_pages b k h io (tb_last t) 1 (tb_first t) ps r -> gives kd ps r rs y -> table_gives b k h io kd rs y.

(** ** Reading tables *)
Lemma variant_kind kd r : is_variant kd r = true <-> of_kind kd r.
Proof. destruct r as [k vs c|]; cbn; [|easy]. destruct (rkind_eq_dec kd k); split; congruence. Qed.
Lemma rows_as_cases kd p : (Forall (of_kind kd) (page_rows p) /\ rows_as kd (rows_of_page p) = DOk (page_rows p)) \/
  (Exists (fun x => ~ of_kind kd x) (page_rows p) /\ rows_as kd (rows_of_page p) = DPanic).
Proof.
  unfold rows_as. change (rows_of_page p) with (page_rows p). destruct (forallb (is_variant kd) (page_rows p)) eqn:E.
  - left. split; [|easy]. apply Forall_forall. intros x I. apply variant_kind. now apply (proj1 (forallb_forall _ _) E).
  - right. split; [|easy]. induction (page_rows p) as [|x l IH]; [easy|]. cbn [forallb] in E. destruct (is_variant kd x) eqn:EX.
    + right. now apply IH.
    + left. rewrite <- variant_kind. congruence.
Qed.
Lemma rows_n_spec b io k kd : bytes_ok io -> forall n d it i, fresh b io k d -> live d it -> 1 <= it_off it -> it_next it = Some i ->
  (len (db_pages d) + 1 - it_off it < N.of_nat n)%N ->
  exists l r x, snd (rows_n b kd n d it) = Some x /\ table_pages b k (db_header d) io (it_last it) (it_off it) i l r /\ rows_in kd l r x.
Proof.
  intros HB. induction n as [|n IH]; intros d it i HF HL HO HN HFuel; [lia|]. cbn [rows_n].
  destruct (iter_next b d it) as [[d1 it1] r0] eqn:E. pose proof (fresh_next b io k d it d1 it1 r0 HF (or_introl HL) E) as [HF1 HV1].
  pose proof (iter_next_header _ _ _ _ _ _ E) as HH1. pose proof HF as (_ & _ & _ & F4 & _).
  apply iter_next_cases in E as [(E & _)|[(j & E1 & E2 & -> & -> & ->)|[(j & E1 & E2 & E3 & -> & -> & ->)|(j & r1 & E1 & E2 & E3 & EL & B1 & B2 & E4 & E5 & H)]]].
  - congruence.
  - assert (j = i) as -> by congruence. exists [], (DErr (DPageOrder i)), (DErr (DPageOrder i)). split; [easy|]. split; [now constructor|constructor].
  - assert (j = i) as -> by congruence. exists [], (DErr (DPageNotPresent i)), (DErr (DPageNotPresent i)). split; [easy|].
    split; [apply tp_absent; destruct HL; lia|]. constructor.
  - assert (j = i) as -> by congruence. pose proof HL as [L1 L2]. replace (it_base it + (i - it_off it)) with (i - 1) in * by lia.
    assert (i <= dh_next (db_header d) - 1) as HI by lia. pose proof (fresh_load b io k d i d1 r1 HB HF ltac:(lia) HI EL) as HR.
    destruct (rd_page b (rd_dstr b) (dh_page_size (db_header d)) k io (i * dh_page_size (db_header d))) as [[p q]|e|] eqn:ER; subst r1.
    + destruct H as [-> HNx]. assert (live d1 it1) as HL1. { destruct HV1 as [HV1|HV1]; [easy|]. apply load_entry_len in EL. split; lia. }
      assert (exists l r x, table_pages b k (db_header d) io (it_last it) (it_off it) i (p :: l) r /\ rows_in kd l r x /\ snd (rows_n b kd n d1 it1) = Some x) as K.
      { destruct (i =? it_last it) eqn:EQ.
        - apply N.eqb_eq in EQ. destruct n as [|n]; [lia|]. cbn [rows_n]. unfold iter_next. rewrite HNx.
          exists [], (DOk tt), (DOk []). split; [rewrite EQ in *; now apply (tp_last _ _ _ _ _ _ p q)|]. split; [constructor|]. easy.
        - apply N.eqb_neq in EQ. pose proof (load_entry_len _ _ _ _ _ _ EL) as HLen.
          destruct (IH d1 it1 (ph_next (pg_header p)) HF1 HL1 ltac:(lia) HNx ltac:(lia)) as (l & r & x & K1 & K2 & K3).
          exists l, r, x. rewrite HH1, E4, E5 in K2. split; [now apply (tp_next _ _ _ _ _ _ i p q)|]. easy. }
      destruct K as (l & r & x & K1 & K2 & K3). exists (p :: l), r. destruct (rows_as_cases kd p) as [[HP ->]|[HP ->]].
      * destruct (rows_n b kd n d1 it1) as [d2 y]. cbn [snd] in K3. subst y. destruct x as [rs|e|]; cbn [snd].
        -- exists (DOk (page_rows p ++ rs)). split; [easy|]. split; [easy|]. now constructor.
        -- exists (DErr e). split; [easy|]. split; [easy|]. now apply ri_page_err.
        -- exists DPanic. split; [easy|]. split; [easy|]. now apply ri_page_panic.
      * exists DPanic. split; [easy|]. split; [easy|]. now apply ri_other.
    + destruct H as [-> _]. exists [], (DErr (DParse e)), (DErr (DParse e)). split; [easy|]. split; [now apply tp_bad|constructor].
    + destruct H as [-> _]. exists [], DPanic, DPanic. split; [easy|]. split; [now apply tp_panic|constructor].
Qed.
Lemma of_variant_cases kd l : forallb (is_variant kd) l = false -> exists x l2, l = of_variant kd l ++ x :: l2 /\ Forall (of_kind kd) (of_variant kd l) /\ ~ of_kind kd x.
Proof.
  induction l as [|x l IH]; [easy|]. cbn [forallb of_variant]. destruct (is_variant kd x) eqn:E; cbn [andb].
  - intro H. destruct (IH H) as (z & l2 & E2 & F & NZ). exists z, l2. cbn [app]. split; [now rewrite <- E2|]. split; [|easy]. constructor; [now apply variant_kind|easy].
  - intros _. exists x, l. split; [easy|]. split; [constructor|]. rewrite <- variant_kind. congruence.
Qed.
Lemma stream_n_spec b io k kd : bytes_ok io -> forall n d it i, fresh b io k d -> live d it -> 1 <= it_off it -> it_next it = Some i ->
  (len (db_pages d) + 1 - it_off it < N.of_nat n)%N ->
  exists l r rs y, stream_n b kd n d it = Some (rs, y) /\ table_pages b k (db_header d) io (it_last it) (it_off it) i l r /\ gives kd l r rs y.
Proof.
  intros HB. induction n as [|n IH]; intros d it i HF HL HO HN HFuel; [lia|]. cbn [stream_n].
  destruct (iter_next b d it) as [[d1 it1] r0] eqn:E. pose proof (fresh_next b io k d it d1 it1 r0 HF (or_introl HL) E) as [HF1 HV1].
  pose proof (iter_next_header _ _ _ _ _ _ E) as HH1. pose proof HF as (_ & _ & _ & F4 & _).
  apply iter_next_cases in E as [(E & _)|[(j & E1 & E2 & -> & -> & ->)|[(j & E1 & E2 & E3 & -> & -> & ->)|(j & r1 & E1 & E2 & E3 & EL & B1 & B2 & E4 & E5 & H)]]].
  - congruence.
  - assert (j = i) as -> by congruence. exists [], (DErr (DPageOrder i)), [], (DErr (DPageOrder i)). split; [easy|]. split; [now constructor|constructor].
  - assert (j = i) as -> by congruence. exists [], (DErr (DPageNotPresent i)), [], (DErr (DPageNotPresent i)). split; [easy|].
    split; [apply tp_absent; destruct HL; lia|]. constructor.
  - assert (j = i) as -> by congruence. pose proof HL as [L1 L2]. replace (it_base it + (i - it_off it)) with (i - 1) in * by lia.
    assert (i <= dh_next (db_header d) - 1) as HI by lia. pose proof (fresh_load b io k d i d1 r1 HB HF ltac:(lia) HI EL) as HR.
    destruct (rd_page b (rd_dstr b) (dh_page_size (db_header d)) k io (i * dh_page_size (db_header d))) as [[p q]|e|] eqn:ER; subst r1.
    + destruct H as [-> HNx]. assert (live d1 it1) as HL1. { destruct HV1 as [HV1|HV1]; [easy|]. apply load_entry_len in EL. split; lia. }
      assert (exists l r rs y, table_pages b k (db_header d) io (it_last it) (it_off it) i (p :: l) r /\ gives kd l r rs y /\ stream_n b kd n d1 it1 = Some (rs, y)) as K.
      { destruct (i =? it_last it) eqn:EQ.
        - apply N.eqb_eq in EQ. destruct n as [|n]; [lia|]. cbn [stream_n]. unfold iter_next. rewrite HNx.
          exists [], (DOk tt), [], (DOk tt). split; [rewrite EQ in *; now apply (tp_last _ _ _ _ _ _ p q)|]. split; [constructor|]. easy.
        - apply N.eqb_neq in EQ. pose proof (load_entry_len _ _ _ _ _ _ EL) as HLen.
          destruct (IH d1 it1 (ph_next (pg_header p)) HF1 HL1 ltac:(lia) HNx ltac:(lia)) as (l & r & rs & y & K1 & K2 & K3).
          exists l, r, rs, y. rewrite HH1, E4, E5 in K2. split; [now apply (tp_next _ _ _ _ _ _ i p q)|]. easy. }
      destruct K as (l & r & rs & y & K1 & K2 & K3). exists (p :: l), r. change (rows_of_page p) with (page_rows p). destruct (forallb (is_variant kd) (page_rows p)) eqn:FV.
      * rewrite K3. cbn [option_map fst snd]. exists (page_rows p ++ rs), y. split; [easy|]. split; [easy|]. constructor; [|easy].
        apply Forall_forall. intros x I. apply variant_kind. now apply (proj1 (forallb_forall _ _) FV).
      * exists (of_variant kd (page_rows p)), DPanic. split; [easy|]. split; [easy|]. destruct (of_variant_cases kd (page_rows p) FV) as (x & l2 & E' & F & NX). now apply (gv_other kd p l r _ x l2).
    + destruct H as [-> _]. exists [], (DErr (DParse e)), [], (DErr (DParse e)). split; [easy|]. split; [now apply tp_bad|constructor].
    + destruct H as [-> _]. exists [], DPanic, [], DPanic. split; [easy|]. split; [now apply tp_panic|constructor].
Qed.
Lemma find_from_cases t : forall l i, (find_from i t l = None /\ forall x, In x l -> tb_type x <> t) \/
  exists l1 x l2, find_from i t l = Some (i + len l1, x) /\ l = l1 ++ x :: l2 /\ tb_type x = t /\ forall y, In y l1 -> tb_type y <> t.
Proof.
  assert (forall x y, ptype_eqb x y = true <-> x = y) as HE.
  { intros [k|c] [k'|c']; cbn; try easy; [destruct (rkind_eq_dec k k')|rewrite N.eqb_eq]; split; congruence. }
  induction l as [|a l IH]; intro i; [now left|]. cbn [find_from]. destruct (ptype_eqb (tb_type a) t) eqn:E.
  - apply HE in E. right. exists [], a, l. rewrite N.add_0_r. repeat (split; [easy|]). easy.
  - assert (tb_type a <> t) as NE by (intro X; apply HE in X; congruence). destruct (IH (i + 1)) as [[H1 H2]|(l1 & x & l2 & H1 & -> & H2 & H3)].
    + left. split; [easy|]. intros x [<-|I]; [easy|now apply H2].
    + right. exists (a :: l1), x, l2. rewrite H1, len_cons. split; [do 2 f_equal; lia|]. split; [easy|]. split; [easy|]. intros y [<-|I]; [easy|now apply H3].
Qed.
Lemma iter_rows_spec b io k kd d : bytes_ok io -> fresh b io k d -> exists x, snd (iter_rows b kd d) = Some x /\ table_in b k (db_header d) io kd x.
Proof.
  intros HB HF. unfold iter_rows, iter_pages, find_table. destruct (find_from_cases (PT kd) (dh_tables (db_header d)) 0) as [[-> H]|(l1 & t & l2 & -> & HT & H1 & H2)].
  - eexists. split; [reflexivity|]. now constructor.
  - destruct (rows_n_spec b io k kd HB (S (S (List.length (db_pages d)))) d (iter_of d t) (tb_first t) HF (iter_of_live d t)) as (l & r & x & K1 & K2 & K3);
      cbn [iter_of it_off it_next it_last] in *; [lia|easy|unfold len; lia|]. exists x. split; [easy|]. now apply (ti_found _ _ _ _ _ l1 t l2 l r).
Qed.
Lemma stream_spec b io k kd d : bytes_ok io -> fresh b io k d -> exists rs y, row_stream b kd d = Some (rs, y) /\ table_gives b k (db_header d) io kd rs y.
Proof.
  intros HB HF. unfold row_stream, iter_pages, find_table. destruct (find_from_cases (PT kd) (dh_tables (db_header d)) 0) as [[-> H]|(l1 & t & l2 & -> & HT & H1 & H2)].
  - eexists _, _. split; [reflexivity|]. now constructor.
  - destruct (stream_n_spec b io k kd HB (S (S (List.length (db_pages d)))) d (iter_of d t) (tb_first t) HF (iter_of_live d t)) as (l & r & rs & y & K1 & K2 & K3);
      cbn [iter_of it_off it_next it_last] in *; [lia|easy|unfold len; lia|]. exists rs, y. split; [easy|]. now apply (tg_found _ _ _ _ _ l1 t l2 l r).
Qed.
(** Tables as a whole. *)
Lemma gives_rows kd l r rs y : gives kd l r rs y -> rows_in kd l r (end_of rs y).
Proof.
  induction 1 as [[[]|e|]|p l r rs [[]|e|] H _ IH|p l r l1 x l2 E F NX]; cbn [end_of] in *; try now constructor.
  apply ri_other. rewrite E. apply Exists_exists. exists x. split; [|easy]. apply in_or_app. right. now left.
Qed.
Lemma table_gives_in b k h io kd rs y : table_gives b k h io kd rs y -> table_in b k h io kd (end_of rs y).
Proof. intros [H|l1 t l2 ps r rs' y' HT H1 H2 H3 H4]; [now constructor|]. apply (ti_found _ _ _ _ _ l1 t l2 ps r); try easy. now apply gives_rows. Qed.
Lemma rows_in_fun kd l r x : rows_in kd l r x -> forall y, rows_in kd l r y -> y = x.
Proof.
  induction 1 as [|e| |p l r rs HP HR IH|p l r e HP HR IH|p l r HP HR IH|p l r HP]; intros y H'; inversion H'; subst; clear H'; try easy;
    try (specialize (IH _ ltac:(eassumption)); congruence).
  all: try (apply Exists_exists in HP as (? & ? & ?)); try (match goal with H : Exists _ _ |- _ => apply Exists_exists in H as (? & ? & ?) end);
    match goal with H : Forall _ _ |- _ => rewrite Forall_forall in H; firstorder end.
Qed.
Lemma first_table l1 t l2 l1' t' l2' (P : table -> Prop) : l1 ++ t :: l2 = l1' ++ t' :: l2' -> P t -> P t' -> (forall x, In x l1 -> ~ P x) -> (forall x, In x l1' -> ~ P x) -> t' = t.
Proof.
  revert l1'. induction l1 as [|a l1 IH]; intros [|a' l1'] E H1 H2 H3 H4; cbn [app] in E; injection E as -> E.
  - easy.
  - exfalso. now apply (H4 a' (or_introl eq_refl)).
  - exfalso. now apply (H3 t' (or_introl eq_refl)).
  - apply (IH l1'); try easy; intros x I; [apply H3|apply H4]; now right.
Qed.
Lemma table_in_fun b k h io kd x y : table_in b k h io kd x -> table_in b k h io kd y -> y = x.
Proof.
  intros H H'. destruct H as [H|l1 t l2 ps r x HT H1 H2 H3 H4]; inversion H' as [G|l1' t' l2' ps' r' x' GT G1 G2 G3 G4]; subst.
  - easy.
  - exfalso. apply (H t'); [|easy]. rewrite GT. apply in_or_app. right. now left.
  - exfalso. apply (G t); [|easy]. rewrite HT. apply in_or_app. right. now left.
  - assert (t' = t) as ->. { apply (first_table l1 t l2 l1' t' l2' (fun t => tb_type t = PT kd)); try easy. congruence. }
    destruct (table_pages_fun _ _ _ _ _ _ _ _ _ H3 _ _ G3) as [-> ->]. exact (rows_in_fun _ _ _ _ H4 _ G4).
Qed.
Lemma split_at_first {A} (P : A -> Prop) l1 x l2 l1' x' l2' : l1 ++ x :: l2 = l1' ++ x' :: l2' -> Forall P l1 -> ~ P x -> Forall P l1' -> ~ P x' -> l1' = l1.
Proof.
  revert l1'. induction l1 as [|a l1 IH]; intros [|a' l1'] E H1 H2 H3 H4; cbn [app] in E; injection E as -> E.
  - easy.
  - now inversion H3.
  - now inversion H1.
  - f_equal. apply IH; [easy|now inversion H1|easy|now inversion H3|easy].
Qed.
Lemma gives_fun kd l r rs y : gives kd l r rs y -> forall rs' y', gives kd l r rs' y' -> rs' = rs /\ y' = y.
Proof.
  induction 1 as [r|p l r rs y HP HR IH|p l r l1 x l2 E F NX]; intros rs' y' H'; inversion H' as [|p' l' r' rs2 y2 HP' HR'|p' l' r' m1 x' m2 E' F' NX']; subst; clear H'; try easy.
  - destruct (IH _ _ HR') as [-> ->]. easy.
  - exfalso. rewrite E' in HP. apply Forall_app in HP as [_ HP]. now inversion HP.
  - exfalso. rewrite E in HP'. apply Forall_app in HP' as [_ HP']. now inversion HP'.
  - split; [|easy]. rewrite E in E'. exact (split_at_first _ _ _ _ _ _ _ E' F NX F' NX').
Qed.
Lemma table_gives_fun b k h io kd rs y rs' y' : table_gives b k h io kd rs y -> table_gives b k h io kd rs' y' -> rs' = rs /\ y' = y.
Proof.
  intros H H'. destruct H as [H|l1 t l2 ps r rs y HT H1 H2 H3 H4]; inversion H' as [G|l1' t' l2' ps' r' rs2 y2 GT G1 G2 G3 G4]; subst.
  - easy.
  - exfalso. apply (H t'); [|easy]. rewrite GT. apply in_or_app. right. now left.
  - exfalso. apply (G t); [|easy]. rewrite HT. apply in_or_app. right. now left.
  - assert (t' = t) as ->. { apply (first_table l1 t l2 l1' t' l2' (fun t => tb_type t = PT kd)); try easy. congruence. }
    destruct (table_pages_fun _ _ _ _ _ _ _ _ _ H3 _ _ G3) as [-> ->]. exact (gives_fun _ _ _ _ _ H4 _ _ G4).
Qed.
Lemma fresh_iter_rows b io k kd d : bytes_ok io -> fresh b io k d -> fresh b io k (fst (iter_rows b kd d)) /\ db_header (fst (iter_rows b kd d)) = db_header d.
Proof.
  intros HB HF. assert (fresh b io k (fst (iter_rows b kd d))) as HF1.
  { unfold iter_rows, iter_pages. destruct (find_table (PT kd) (db_header d)) as [[x t]|]; [|easy]. apply fresh_rows_n; [easy|left; apply iter_of_live]. }
  split; [easy|]. destruct HF as (_ & _ & (q & E) & _), HF1 as (_ & _ & (q1 & E1) & _). congruence.
Qed.
(** What a table contains does not depend on what was read before. *)
Lemma iter_rows_is b io k kd d x : bytes_ok io -> fresh b io k d -> table_in b k (db_header d) io kd x -> snd (iter_rows b kd d) = Some x.
Proof. intros HB HF HT. destruct (iter_rows_spec b io k kd d HB HF) as (y & E & HY). now rewrite E, (table_in_fun _ _ _ _ _ _ _ HT HY). Qed.

(** ** Rows *)
Lemma artist_of_shaped r : row_shaped r -> is_variant KArtist r = true -> exists x, artist_of_row r = Some x.
Proof.
  destruct r as [k vs oc|]; [|easy]. intros [F O] V. cbn [is_variant] in V. destruct (rkind_eq_dec KArtist k) as [<-|]; [|easy].
  cbn [row_oarr] in O. destruct oc as [c|]; [|easy].
  assert (exists i, nth_error vs 2 = Some (VInt i)) as [i HI].
  { cbn [row_fields] in F. clear O. do 2 (inversion F as [|? ? ? ? _ F']; clear F; rename F' into F; subst). inversion F as [|? v ? ? HV _]; subst. cbn [nth_error]. destruct v; try easy. eauto. }
  assert (exists s, nth_error (oa_items c) 0 = Some s) as [s HS].
  { destruct (nth_error (oa_items c) 0) eqn:E; [eauto|]. apply nth_error_None in E. lia. }
  exists (i, s). cbn [artist_of_row]. now rewrite HI, HS.
Qed.
Lemma listed_track_of_shaped r : row_shaped r -> is_variant KTrack r = true -> exists x, listed_track_of_row r = Some x.
Proof.
  destruct r as [k vs oc|]; [|easy]. intros [F O] V. cbn [is_variant] in V. destruct (rkind_eq_dec KTrack k) as [<-|]; [|easy].
  cbn [row_oarr] in O. destruct oc as [c|]; [|easy].
  assert (exists i a, nth_error vs 20 = Some (VInt i) /\ nth_error vs 19 = Some (VInt a)) as (i & a & HI & HA).
  { cbn [row_fields] in F. clear O. do 19 (inversion F as [|? ? ? ? _ F']; clear F; rename F' into F; subst).
    inversion F as [|? v ? ? HV F']; subst. inversion F' as [|? w ? ? HW _]; subst. cbn [nth_error]. destruct v, w; try easy. eauto. }
  assert (exists s, nth_error (oa_items c) 17 = Some s) as [s HS].
  { destruct (nth_error (oa_items c) 17) eqn:E; [eauto|]. apply nth_error_None in E. lia. }
  exists (i, (a, s)). cbn [listed_track_of_row]. now rewrite HI, HA, HS.
Qed.
Lemma table_rows_is {A} b io k kd (f : row -> option A) d x : (forall r, row_shaped r -> is_variant kd r = true -> exists x, f r = Some x) ->
  bytes_ok io -> fresh b io k d -> db_shaped d -> table_in b k (db_header d) io kd x ->
  match x with
  | DOk rows => exists l, table_rows b kd f d = Done l /\ Forall2 (fun r x => f r = Some x) rows l
  | DErr e => table_rows b kd f d = Fail (PDb e)
  | DPanic => table_rows b kd f d = Crash
  end.
Proof.
  intros HS HB HF HD HT. pose proof (iter_rows_is b io k kd d x HB HF HT) as E. destruct x as [rows|e|].
  - now apply (table_rows_ok b kd f d rows).
  - unfold table_rows. now rewrite E.
  - unfold table_rows. now rewrite E.
Qed.

(** ** Maps *)
Lemma insert_all_get {V} (l : list (N * V)) k v : mm_get (insert_all l) k = Some v <-> last_of (fun x => fst x = k) l (k, v).
Proof.
  unfold insert_all. induction l as [|[i q] l IH] using rev_ind; [split; [easy|intro H; now apply last_of_nil in H]|].
  rewrite fold_left_app. cbn [fold_left]. rewrite hm_get_upd, last_of_snoc, <- IH. cbn [fst snd].
  destruct (N.eqb_spec i k) as [->|E].
  - split; [intros [= <-]; left; easy|]. intros [[_ [= <-]]|[H _]]; easy.
  - split; [auto|]. intros [[H _]|[_ H]]; easy.
Qed.
Lemma insert_all_none {V} (l : list (N * V)) k : mm_get (insert_all l) k = None <-> ~ In k (map fst l).
Proof.
  unfold insert_all. induction l as [|[i q] l IH] using rev_ind; [easy|].
  rewrite fold_left_app. cbn [fold_left]. rewrite hm_get_upd, map_app, in_app_iff. cbn [map fst snd In].
  destruct (N.eqb_spec i k) as [->|E]; [split; [easy|intro H; exfalso; apply H; auto]|]. rewrite IH. tauto.
Qed.

(** ** Spec: the lines for the tracks of a playlist *)
(** The last row counts for tracks and artists with the same id. *)
Inductive track_line (arts : list (N * dstr)) (trs : list (N * (N * dstr))) (level : nat) (i t : N) : item -> Prop :=
| tl_missing : ~ In t (map fst trs) -> track_line arts trs level i t ([], LTrack level i (TMissing t))
| tl_no_artist a title : last_of (fun x => fst x = t) trs (t, (a, title)) -> ~ In a (map fst arts) ->
    track_line arts trs level i t ([title], LTrack level i (TNoArtist a title))
| tl_found a title name : last_of (fun x => fst x = t) trs (t, (a, title)) -> last_of (fun x => fst x = a) arts (a, name) ->
    track_line arts trs level i t ([name; title], LTrack level i (TFound name title)).
(** A line for the node, then its tracks in ascending order of the index; the last entry counts for entries with the same index. *)
Definition node_lines (es : list pentry) (arts : list (N * dstr)) (trs : list (N * (N * dstr))) (x : nat * node) (l : list item) : Prop :=
  exists (ps : list (N * N)) ls, l = ([nd_name (snd x)], LNode (fst x) (nd_folder (snd x)) (nd_name (snd x))) :: ls /\
    StronglySorted (fun y z => fst y < fst z) ps /\
    (forall i t, In (i, t) ps <-> last_of (fun e => pe_playlist e = nd_id (snd x) /\ pe_index e = i) es (mk_pentry i t (nd_id (snd x)))) /\
    Forall2 (fun y it => track_line arts trs (fst x) (fst y) (snd y) it) ps ls.
Lemma track_item_line arts trs level i t : track_line arts trs level i t (track_item (insert_all arts) (insert_all trs) level i t).
Proof.
  unfold track_item. destruct (mm_get (insert_all trs) t) as [[a title]|] eqn:ET.
  - apply insert_all_get in ET. destruct (mm_get (insert_all arts) a) as [name|] eqn:EA.
    + apply insert_all_get in EA. now apply (tl_found _ _ _ _ _ a).
    + apply insert_all_none in EA. now apply (tl_no_artist _ _ _ _ _ a).
  - apply insert_all_none in ET. now apply tl_missing.
Qed.
Lemma row_items_lines es arts trs x : node_lines es arts trs x (row_items (entries_map es) (insert_all arts) (insert_all trs) x).
Proof.
  destruct (entries_get es (nd_id (snd x))) as (m & EM & S & G). exists m. eexists. split; [unfold row_items; rewrite EM; reflexivity|]. split; [|split].
  - unfold sorted, keys in S. clear -S. induction m as [|[i t] m IH]; [constructor|]. cbn [map fst] in S. inversion S as [|? ? S1 S2]; subst. constructor; [auto|].
    rewrite Forall_map in S2. exact S2.
  - intros i t. rewrite <- G. split; [now apply map_get_in|apply map_get_some].
  - clear. induction m as [|y m IH]; cbn [map]; constructor; [apply track_item_line|exact IH].
Qed.

(** ** The command *)
(** The tables that are read, in this order. *)
Definition listed_tables : list rkind := [KPlaylistTreeNode; KArtist; KTrack; KPlaylistEntry].
Lemma list_rows b io d : bytes_ok io -> db_open io DbPlain = DOk d ->
  let T := table_in b DbPlain (db_header d) io in
  (forall l1 kd l2, listed_tables = l1 ++ kd :: l2 -> (forall kd', In kd' l1 -> exists rows, T kd' (DOk rows)) ->
     (forall e, T kd (DErr e) -> forall depth, list_playlists b depth io = Some (Fail (PDb e))) /\ (T kd DPanic -> forall depth, list_playlists b depth io = Some Crash)) /\
  forall rn ra rt re, T KPlaylistTreeNode (DOk rn) -> T KArtist (DOk ra) -> T KTrack (DOk rt) -> T KPlaylistEntry (DOk re) ->
    exists ns arts trs es, Forall2 (fun r x => node_of_row r = Some x) rn ns /\ Forall2 (fun r x => artist_of_row r = Some x) ra arts /\
      Forall2 (fun r x => listed_track_of_row r = Some x) rt trs /\ Forall2 (fun r x => pentry_of_row r = Some x) re es /\
      forall depth, list_playlists b depth io = option_map Done (print_children depth (by_parent ns) (entries_map es) (insert_all arts) (insert_all trs) 0 0).
Proof.
  intros HB HO T. pose proof (open_fresh b io DbPlain d HO) as HF. pose proof (open_shaped io DbPlain d HO) as HD.
  set (d1 := fst (iter_rows b KPlaylistTreeNode d)). set (d2 := fst (iter_rows b KArtist d1)). set (d3 := fst (iter_rows b KTrack d2)).
  destruct (fresh_iter_rows b io DbPlain KPlaylistTreeNode d HB HF) as [HF1 HH1]. fold d1 in HF1, HH1. destruct (iter_rows_shaped b KPlaylistTreeNode d HD) as [HD1 _]. fold d1 in HD1.
  destruct (fresh_iter_rows b io DbPlain KArtist d1 HB HF1) as [HF2 HH2]. fold d2 in HF2, HH2. destruct (iter_rows_shaped b KArtist d1 HD1) as [HD2 _]. fold d2 in HD2.
  destruct (fresh_iter_rows b io DbPlain KTrack d2 HB HF2) as [HF3 HH3]. fold d3 in HF3, HH3. destruct (iter_rows_shaped b KTrack d2 HD2) as [HD3 _]. fold d3 in HD3.
  assert (forall x, T KPlaylistTreeNode x -> _) as K0 by (intros x; apply (table_rows_is b io DbPlain KPlaylistTreeNode node_of_row d x node_of_shaped HB HF HD)).
  assert (forall x, T KArtist x -> _) as K1 by (intros x HX; subst T; rewrite <- HH1 in HX; exact (table_rows_is b io DbPlain KArtist artist_of_row d1 x artist_of_shaped HB HF1 HD1 HX)).
  assert (forall x, T KTrack x -> _) as K2 by (intros x HX; subst T; rewrite <- HH1, <- HH2 in HX; exact (table_rows_is b io DbPlain KTrack listed_track_of_row d2 x listed_track_of_shaped HB HF2 HD2 HX)).
  assert (forall x, T KPlaylistEntry x -> _) as K3 by (intros x HX; subst T; rewrite <- HH1, <- HH2, <- HH3 in HX; exact (table_rows_is b io DbPlain KPlaylistEntry pentry_of_row d3 x pentry_of_shaped HB HF3 HD3 HX)).
  clearbody T. split.
  - intros l1 kd l2 HL HP. unfold listed_tables in HL. unfold list_playlists. rewrite HO. fold d1. fold d2. fold d3.
    destruct l1 as [|k0 l1]; injection HL as <- HL; [split; [intros e HT|intros HT]; intro depth; now rewrite (K0 _ HT)|].
    destruct (HP KPlaylistTreeNode) as [rn Hn]; [now left|]. destruct (K0 _ Hn) as (ns & En & _). rewrite En.
    destruct l1 as [|k1 l1]; injection HL as <- HL; [split; [intros e HT|intros HT]; intro depth; now rewrite (K1 _ HT)|].
    destruct (HP KArtist) as [ra Ha]; [right; now left|]. destruct (K1 _ Ha) as (arts & Ea & _). rewrite Ea.
    destruct l1 as [|k2 l1]; injection HL as <- HL; [split; [intros e HT|intros HT]; intro depth; now rewrite (K2 _ HT)|].
    destruct (HP KTrack) as [rt Ht]; [right; right; now left|]. destruct (K2 _ Ht) as (trs & Et & _). rewrite Et.
    destruct l1 as [|k3 l1]; injection HL as <- HL; [split; [intros e HT|intros HT]; intro depth; now rewrite (K3 _ HT)|].
    now destruct l1.
  - intros rn ra rt re Hn Ha Ht He. destruct (K0 _ Hn) as (ns & En & Fn), (K1 _ Ha) as (arts & Ea & Fa), (K2 _ Ht) as (trs & Et & Ft), (K3 _ He) as (es & Ee & Fe).
    exists ns, arts, trs, es. repeat (split; [easy|]). intro depth. unfold list_playlists. rewrite HO, En. fold d1. rewrite Ea. fold d2. rewrite Et. fold d3. now rewrite Ee.
Qed.

(** ** Exporting *)
(** The tables that are read for an export, in this order. *)
Definition exported_tables : list rkind := [KPlaylistTreeNode; KPlaylistEntry; KTrack].
(** The first table that cannot be read. *)
Definition first_bad (T : rkind -> dres (list row) -> Prop) (x : dres (list row)) : Prop :=
  exists l1 kd l2, exported_tables = l1 ++ kd :: l2 /\ (forall kd', In kd' l1 -> exists rows, T kd' (DOk rows)) /\ T kd x.
Lemma decode_tracks_fail l : decode_tracks l = None -> exists i s, In (i, s) l /\ ~ exists p, dstr_into_string s = inl p.
Proof.
  induction l as [|[i s] l IH]; [easy|]. cbn [decode_tracks]. destruct (dstr_into_string s) as [p|e] eqn:E.
  - destruct (decode_tracks l); [easy|]. intros _. destruct (IH eq_refl) as (j & t & I & H). exists j, t. split; [now right|easy].
  - intros _. exists i, s. split; [now left|]. intros [p X]. congruence.
Qed.
Lemma decode_tracks_some l tr : decode_tracks l = Some tr -> Forall2 (fun x y => fst x = fst y /\ dstr_into_string (snd x) = inl (snd y)) l tr.
Proof.
  revert tr. induction l as [|[i s] l IH]; intros tr H; cbn [decode_tracks] in H; [injection H as <-; constructor|].
  destruct (dstr_into_string s) as [p|e] eqn:E; [|easy]. destruct (decode_tracks l) as [tr'|] eqn:ET; [|easy]. injection H as <-. constructor; [easy|now apply IH].
Qed.
(** If the tracks are read at all, the paths of those that are delivered decode. *)
Definition paths_decode (b : build) (k : dbtype) (h : dbhdr) (io : list N) : Prop :=
  forall rn re rs y r i s, table_in b k h io KPlaylistTreeNode (DOk rn) -> table_in b k h io KPlaylistEntry (DOk re) -> table_gives b k h io KTrack rs y ->
  In r rs -> track_of_row r = Some (i, s) -> exists p, dstr_into_string s = inl p.
Lemma export_file b io k d out canon : bytes_ok io -> db_open io k = DOk d ->
  let T := table_in b k (db_header d) io in
  forall depth, match export b depth d out canon with
  | Some (Done ops) => exists rn re rt ns es raw tr ts, T KPlaylistTreeNode (DOk rn) /\ T KPlaylistEntry (DOk re) /\ T KTrack (DOk rt) /\
      Forall2 (fun r x => node_of_row r = Some x) rn ns /\ Forall2 (fun r x => pentry_of_row r = Some x) re es /\ Forall2 (fun r x => track_of_row r = Some x) rt raw /\
      Forall2 (fun x y => fst x = fst y /\ dstr_into_string (snd x) = inl (snd y)) raw tr /\ playlist_tree depth ns = Some (Done ts) /\
      ops = flat_map (fun t => walk (content canon (entries_map es) (tracks_map tr)) t out) ts
  | Some (Fail (PDb e)) => first_bad T (DErr e) /\ paths_decode b k (db_header d) io
  | Some (Fail PEncoding) =>
      (exists rn ns r n, T KPlaylistTreeNode (DOk rn) /\ Forall2 (fun r x => node_of_row r = Some x) rn ns /\ In r rn /\ node_of_row r = Some n /\ reaches ns 0 (nd_parent n) /\ ~ exists s, decodes n s) \/
      (exists rn re rs y r i s, T KPlaylistTreeNode (DOk rn) /\ T KPlaylistEntry (DOk re) /\ table_gives b k (db_header d) io KTrack rs y /\ In r rs /\ track_of_row r = Some (i, s) /\
         ~ exists p, dstr_into_string s = inl p)
  | Some Crash => first_bad T DPanic /\ paths_decode b k (db_header d) io
  | None => exists rn ns, T KPlaylistTreeNode (DOk rn) /\ Forall2 (fun r x => node_of_row r = Some x) rn ns /\ playlist_tree depth ns = None
  end.
Proof.
  intros HB HO T depth. pose proof (open_fresh b io k d HO) as HF. pose proof (open_shaped io k d HO) as HD.
  set (d1 := fst (iter_rows b KPlaylistTreeNode d)). set (d2 := fst (iter_rows b KPlaylistEntry d1)).
  destruct (fresh_iter_rows b io k KPlaylistTreeNode d HB HF) as [HF1 HH1]. fold d1 in HF1, HH1. destruct (iter_rows_shaped b KPlaylistTreeNode d HD) as [HD1 _]. fold d1 in HD1.
  destruct (fresh_iter_rows b io k KPlaylistEntry d1 HB HF1) as [HF2 HH2]. fold d2 in HF2, HH2. destruct (iter_rows_shaped b KPlaylistEntry d1 HD1) as [HD2 _]. fold d2 in HD2.
  assert (exists x, snd (iter_rows b KPlaylistTreeNode d) = Some x /\ T KPlaylistTreeNode x) as (xn & En & Tn) by exact (iter_rows_spec b io k KPlaylistTreeNode d HB HF).
  assert (exists x, T KPlaylistEntry x) as (xe & Te). { destruct (iter_rows_spec b io k KPlaylistEntry d HB HF) as (x & _ & X). now exists x. }
  pose proof Te as Te'. subst T. rewrite <- HH1 in Te'. pose proof (table_rows_is b io k KPlaylistEntry pentry_of_row d1 xe pentry_of_shaped HB HF1 HD1 Te') as Ke.
  destruct (stream_spec b io k KTrack d2 HB HF2) as (rs & y & Es & Tt). rewrite HH2, HH1 in Tt. destruct (stream_values b KTrack track_of_row d2 rs y track_of_shaped HD2 Es) as (raw & Er & Ft).
  clear Te'. pose proof (table_gives_in _ _ _ _ _ _ _ Tt) as Tt'. set (T := table_in b k (db_header d) io) in *.
  assert (forall xn xe, T KPlaylistTreeNode xn -> T KPlaylistEntry xe -> (forall rn, xn <> DOk rn) \/ (forall re, xe <> DOk re) -> paths_decode b k (db_header d) io) as P0.
  { intros x1 x2 X1 X2 HX rn re rs' y' r i s R1 R2. pose proof (table_in_fun _ _ _ _ _ _ _ X1 R1). pose proof (table_in_fun _ _ _ _ _ _ _ X2 R2). destruct HX as [HX|HX]; exfalso; [now apply (HX rn)|now apply (HX re)]. }
  unfold export. fold d1. fold d2.
  assert (forall x, T KPlaylistTreeNode x -> first_bad T x) as B0 by (intros x X; exists [], KPlaylistTreeNode, [KPlaylistEntry; KTrack]; now split).
  destruct xn as [rn|en|]; [|unfold get_playlists; rewrite En; split; [now apply B0|apply (P0 _ _ Tn Te); now left]|unfold get_playlists; rewrite En; split; [now apply B0|apply (P0 _ _ Tn Te); now left]].
  destruct (get_playlists_rows b d rn HD En) as (ns & Fn & Gn). rewrite Gn.
  destruct (playlist_tree depth ns) as [[ts|e|]|] eqn:EP.
  2: { apply child_fail in EP as ([= ->] & n & I & R & B); [|easy]. apply (Forall2_In_r _ _ _ _ Fn) in I as (r & IR & ER).
       left. exists rn, ns, r, n. easy. }
  2: { apply child_fail in EP as (EP & _); easy. }
  2: { exists rn, ns. easy. }
  assert (forall x, T KPlaylistEntry x -> first_bad T x) as B1.
  { intros x X. exists [KPlaylistTreeNode], KPlaylistEntry, [KTrack]. split; [easy|]. split; [|easy]. intros kd [<-|[]]. now exists rn. }
  destruct xe as [re|ee|]; [destruct Ke as (es & Ee & Fe); rewrite Ee|rewrite Ke; split; [now apply B1|apply (P0 _ _ Tn Te); now right]|rewrite Ke; split; [now apply B1|apply (P0 _ _ Tn Te); now right]].
  assert (forall x, T KTrack x -> first_bad T x) as B2.
  { intros x X. exists [KPlaylistTreeNode; KPlaylistEntry], KTrack, []. split; [easy|]. split; [|easy]. intros kd [<-|[<-|[]]]; [now exists rn|now exists re]. }
  unfold track_paths. rewrite Es, (decode_rows_of _ _ Ft). destruct (decode_tracks raw) as [tr|] eqn:ED.
  - pose proof (decode_tracks_some _ _ ED) as FD.
    assert (paths_decode b k (db_header d) io) as PD.
    { intros rn' re' rs' y' r i s _ _ G I E. destruct (table_gives_fun _ _ _ _ _ _ _ _ _ Tt G) as [-> _]. apply (Forall2_In_l _ _ _ _ Ft) in I as (z & IZ & EZ). rewrite E in EZ. injection EZ as <-.
      apply (Forall2_In_l _ _ _ _ FD) in IZ as ([j p] & _ & _ & EP'). now exists p. }
    destruct y as [[]|e|]; cbn [end_of] in Tt'.
    + exists rn, re, rs, ns, es, raw, tr, ts. repeat (split; [easy|]). easy.
    + split; [now apply B2|easy].
    + split; [now apply B2|easy].
  - right. apply decode_tracks_fail in ED as (i & s & I & NP). apply (Forall2_In_r _ _ _ _ Ft) in I as (r & IR & ER). exists rn, re, rs, y, r, i, s. easy.
Qed.
