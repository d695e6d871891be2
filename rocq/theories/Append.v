(** * Appending pages to a database *)
From Coq Require Import NArith ZArith List Bool Lia.
From Coq Require Import ZifyBool ZifyNat ZifyN.
From Verif Require Import Base BaseFacts Segs Str StrFacts StrGood Schema SchemaFacts Oa OaFacts OaSpec Rows RowFacts RowSpec Page BitFacts PageFacts PageRw PageSpec IndexSpec Alloc AllocFacts AllocSpec Db DbFacts DbFlush DbFresh DumpFacts Robust Reread Progress Insert Session Revise Relink Cut Untouched.
Import ListNotations.
Open Scope N_scope.

(** ** Model *)
(** [Database] has no function that adds a page: [load_page] refuses indices from [next_unused_page] of the opened file on (src/pdb/io.rs:103-124), and [flush] writes the pages that are
    loaded.  But [Page] can be written with [BinWrite] (mod.rs:545-563), its fields are public, and so is [next_unused_page] (mod.rs:213).  So a program can write pages behind the
    last one, open the file, count them in the header, and save. *)
Definition with_next (n : N) (h : dbhdr) : dbhdr := mk_dbhdr (dh_page_size h) (dh_num h) n (dh_unknown h) (dh_seq h) (dh_tables h).
Definition appended (b : build) (k : dbtype) (io : list N) (l : list page) (io2 : list N) : Prop :=
  exists d io1 z d1 d2, db_open io k = DOk d /\ let h := db_header d in
    wr_all (map (page_write b (dh_page_size h)) l) (io, dh_next h * dh_page_size h) = Ok (io1, z) /\
    db_open io1 k = DOk d1 /\ flush b (with_header d1 (with_next (dh_next h + len l) (db_header d1))) = DOk d2 /\ db_io d2 = io2.

(** ** Spec *)
Definition adjoin (A : shelves) (n : N) (l : list shelf) : shelves := fun i => if i <? n then A i else getN l (i - n).

(** ** Writing the header before or after *)
Lemma write_at_swap io p bs hp : len hp <= p -> hp <> [] -> write_at (write_at io p bs) 0 hp = write_at (write_at io 0 hp) p bs.
Proof.
  intros HP NE. destruct bs as [|x bs]; [now rewrite !write_at_nil|]. remember (x :: bs) as y eqn:EY. assert (y <> []) as NY by (now rewrite EY). clear EY. apply list_ext. intro i.
  rewrite (getN_write_at _ 0 hp i NE), (getN_write_at io p y i NY), (getN_write_at (write_at io 0 hp) p y i NY), (getN_write_at io 0 hp i NE), (len_write_at io 0 hp NE). replace (i <? 0) with false by lia. cbv iota.
  rewrite N.add_0_l, N.sub_0_r. destruct (i <? len hp) eqn:E1.
  - replace (i <? p) with true by lia. now replace (i <? N.max (len io) (len hp)) with true by lia.
  - destruct (i <? p) eqn:E2; [|easy]. destruct (i <? len io) eqn:E3; [now replace (i <? N.max (len io) (len hp)) with true by lia|now replace (i <? N.max (len io) (len hp)) with false by lia].
Qed.
Lemma write_segs_swap hp : hp <> [] -> forall l io, Forall (fun s => len hp <= fst s) l -> write_at (write_segs io l) 0 hp = write_segs (write_at io 0 hp) l.
Proof.
  intros NE. induction l as [|[p bs] l IH]; intros io H; [easy|]. inversion H as [|? ? H1 H2]; subst. cbn [fst] in H1. cbn [write_segs]. rewrite IH by easy. now rewrite write_at_swap.
Qed.
Lemma pages_pieces b db ps l : Forall (page_inside b db ps) l -> forall buf pos s, wr_all (map (page_write b ps) l) (buf, pos) = Ok s ->
  exists segs, fst s = write_segs buf segs /\ Forall (fun x => pos <= fst x) segs /\ forall buf', wr_all (map (page_write b ps) l) (buf', pos) = Ok (write_segs buf' segs, snd s) \/ forall s', wr_all (map (page_write b ps) l) (buf', pos) <> Ok s'.
Proof.
  intro HF. induction HF as [|p l HP HF IH]; intros buf pos s HW; cbn [map wr_all] in *.
  - injection HW as <-. exists []. split; [easy|]. split; [constructor|]. intro buf'. now left.
  - unfold wr_seq in *. destruct (page_write b ps p (buf, pos)) as [s1| |] eqn:E1; [|easy|easy]. cbn [res_bind] in HW. destruct (page_write_pieces b db ps p buf pos s1 HP E1) as (l1 & P1 & -> & P3).
    destruct (IH _ _ _ HW) as (segs & Q1 & Q2 & Q3). exists (l1 ++ segs). split; [now rewrite write_segs_app|]. split.
    + apply Forall_app. split; [|eapply Forall_impl; [|exact Q2]; cbv beta; intros x Hx; lia]. apply Forall_forall. intros x Hx. unfold segs_within in P3. rewrite Forall_forall in P3. now apply P3 in Hx.
    + intro buf'. destruct (page_write b ps p (buf', pos)) as [s2| |] eqn:E2; [|right; easy|right; easy]. cbn [res_bind]. destruct (page_write_pieces b db ps p buf' pos s2 HP E2) as (l2 & P4 & -> & _).
      rewrite (pieces_fun b ps pos p l1 l2 P1 P4). rewrite write_segs_app. apply Q3.
Qed.
Lemma wr_nones b ps : forall n buf pos, wr_all (map (lpage_write b ps) (repeat None n)) (buf, pos) = Ok (buf, pos + N.of_nat n * ps).
Proof.
  induction n as [|n IH]; intros buf pos; cbn [repeat map wr_all]; [unfold wr_nil; do 2 f_equal; lia|]. unfold wr_seq. cbn [lpage_write]. unfold wr_seek_rel. cbv beta iota zeta.
  destruct (Z.of_N pos + Z.of_N ps <? 0)%Z eqn:E; [lia|]. cbn [res_bind]. rewrite IH. do 2 f_equal. lia.
Qed.
Lemma wr_all_app : forall a c s s1, wr_all a s = Ok s1 -> wr_all (a ++ c) s = wr_all c s1.
Proof.
  induction a as [|w a IH]; intros c s s1 H; cbn [app wr_all] in *; [now injection H as <-|]. unfold wr_seq in *. destruct (w s) as [s2| |]; [|easy|easy]. cbn [res_bind] in *. now apply IH.
Qed.
(** The same bytes are written by saving a database that has the new pages in memory. *)
Definition star (d : database) (l : list page) : database := mk_db (db_io d) (db_kind d) (with_next (dh_next (db_header d) + len l) (db_header d)) (db_pages d ++ map Some l).
Lemma open_nones io k d : db_open io k = DOk d -> db_pages d = repeat None (N.to_nat (dh_next (db_header d) - 1)).
Proof. unfold db_open. destruct (rd_dbhdr k io 0) as [[h q]| |]; try easy. now intros [= <-]. Qed.
Lemma star_stores b k io d G A l S : db_open io k = DOk d -> stores b d G A -> 1 <= dh_next (db_header d) -> dh_next (db_header d) + len l < 2 ^ 32 ->
  Forall (fun p => page_consistent b k (dh_page_size (db_header d)) p /\ page_writes b (dh_page_size (db_header d)) p) l ->
  (forall i p, getN l i = Some p -> graded b k (dh_page_size (db_header d)) (G (dh_next (db_header d) + i)) p) -> Forall2 like S l ->
  stores b (star d l) G (adjoin A (dh_next (db_header d)) S).
Proof.
  intros HO (HS & HW & HA) H1 H32 HL HG HF. destruct (open_pages _ _ _ HO) as (D1 & D2 & D3 & D4). pose proof HS as (S0 & S1 & S2 & S3 & S4). rewrite Forall_forall in HL.
  assert (forall i p, getN (db_pages (star d l)) i = Some (Some p) -> In p l) as HP.
  { intros i p E. cbn [star db_pages] in E. rewrite getN_app in E. destruct (i <? len (db_pages d)); [apply D4 in E; discriminate|]. assert (In (Some p) (map Some l)) as X by (apply in_getN; eexists; exact E). apply in_map_iff in X as (p' & [= ->] & X). easy. }
  split; [|split].
  - unfold savable. cbn [star db_io db_kind db_header db_pages with_next dh_page_size dh_tables dh_next]. split; [exact S0|]. split; [|split; [exact S2|split; [rewrite len_app, len_map, S3; lia|]]].
    + destruct S1 as (X1 & X2 & X3 & X4 & X5 & X6 & X7). unfold dbhdr_ok, with_next. cbn. split; [easy|]. split; [easy|]. split; [exact H32|]. now repeat (split; [easy|]).
    + intros i p E. apply HP in E. rewrite D2. now apply HL.
  - intros i p E. apply HP in E. cbn [star db_header with_next dh_page_size]. now apply HL.
  - intros i s E. unfold adjoin in E. destruct (i <? dh_next (db_header d)) eqn:EI.
    + destruct (HA i s E) as (p & P1 & P2 & P3). pose proof (page_of_range b d i p P1) as [HI1 HI2]. assert (getN (db_pages (star d l)) (i - 1) = getN (db_pages d) (i - 1)) as EG by (cbn [star db_pages]; rewrite getN_app; replace (i - 1 <? len (db_pages d)) with true by lia; easy).
      exists p. split; [|split; [|exact P3]].
      * unfold page_of in *. rewrite EG. exact P1.
      * unfold kept_page, in_memory, self_contained in *. rewrite EG. exact P2.
    + assert (exists p, getN l (i - dh_next (db_header d)) = Some p /\ like s p) as (p & EP & LP).
      { clear - E HF. revert E. generalize (i - dh_next (db_header d)). induction HF as [|x y S l HL _ IH]; intros n E; [apply getN_Some_lt in E; rewrite len_nil in E; lia|]. rewrite getN_cons in E; rewrite getN_cons. destruct (n =? 0); [injection E as <-; now exists y|now apply IH]. }
      assert (getN (db_pages (star d l)) (i - 1) = Some (Some p)) as EG.
      { cbn [star db_pages]. rewrite getN_app, S3. replace (i - 1 <? dh_next (db_header d) - 1) with false by lia. replace (i - 1 - (dh_next (db_header d) - 1)) with (i - dh_next (db_header d)) by lia.
        clear - EP. revert EP. generalize (i - dh_next (db_header d)). induction l as [|y l IH]; intros n E; [apply getN_Some_lt in E; rewrite len_nil in E; lia|]. cbn [map]. rewrite getN_cons in E; rewrite getN_cons. destruct (n =? 0); [now injection E as <-|now apply IH]. }
      exists p. split; [split; [lia|now left]|]. split; [|exact LP]. left. split; [split; [lia|exact EG]|]. cbn [star db_kind db_header with_next dh_page_size]. rewrite D2. specialize (HG _ _ EP). now replace (dh_next (db_header d) + (i - dh_next (db_header d))) with i in HG by lia.
Qed.
Lemma appended_stores b k io d G A l S io2 : db_open io k = DOk d -> stores b d G A -> 1 <= dh_next (db_header d) -> dh_next (db_header d) + len l < 2 ^ 32 ->
  Forall (fun p => page_consistent b k (dh_page_size (db_header d)) p /\ page_writes b (dh_page_size (db_header d)) p) l ->
  (forall i p, getN l i = Some p -> graded b k (dh_page_size (db_header d)) (G (dh_next (db_header d) + i)) p) -> Forall2 like S l -> appended b k io l io2 ->
  exists d3, db_open io2 k = DOk d3 /\ db_header d3 = with_next (dh_next (db_header d) + len l) (db_header d) /\ stores b d3 G (adjoin A (dh_next (db_header d)) S).
Proof.
  intros HO HS H1 H32 HL HG HF (d0 & io1 & z & d1 & d2 & E0 & EW & E1 & EF & <-). rewrite HO in E0. injection E0 as <-. pose proof (star_stores b k io d G A l S HO HS H1 H32 HL HG HF) as HST. pose proof HS as ((S0 & S1 & S2 & S3 & S4) & _).
  destruct (open_pages _ _ _ HO) as (D1 & D2 & D3 & D4). set (ps := dh_page_size (db_header d)) in *. set (n := dh_next (db_header d)) in *. set (h' := with_next (n + len l) (db_header d)) in *.
  destruct (stores_flush b _ G _ HST) as [ds FS]. destruct (flush_stores b _ ds G _ HST FS) as (d3 & O1 & O2 & O3 & O4). exists d3. cbn [star db_kind db_header] in O1, O2. rewrite D2 in O1. fold h' in O2. split; [|split; [exact O2|exact O4]]. rewrite <- O1. apply (f_equal (fun x => db_open x k)). clear d3 O1 O2 O3 O4.
  assert (Forall (page_inside b k ps) l) as HI by (eapply Forall_impl; [|exact HL]; intros p [X _]; now apply consistent_inside).
  destruct (pages_pieces b k ps l HI _ _ _ EW) as (segs & P1 & P2 & P3). cbn [fst snd] in P1. assert (ps <= n * ps) as HN by nia.
  assert (len (header_page h') = ps) as LH by (apply len_header_page; exact S2). assert (header_page h' <> []) as NE by (intro E; rewrite E, len_nil in LH; lia).
  assert (db_header d1 = db_header d) as EH.
  { pose proof (open_header b _ _ _ _ _ HO HS) as E. pose proof (has_len _ _ _ E) as EL. apply has_get in E as [_ E]. rewrite len_dbhdr_enc in *. assert (has io1 0 (dbhdr_enc (db_header d))) as HH.
    { apply has_get. split; [lia|]. rewrite len_dbhdr_enc. intros x Hx. rewrite <- E by easy. subst io1. apply write_segs_frame; [lia|]. intro HC. unfold covered in HC. apply Exists_exists in HC as (s & Hs & [X _]). rewrite Forall_forall in P2. apply P2 in Hs. lia. }
    unfold db_open in E1. rewrite (dbhdr_wr k (db_header d)) in E1 by (easy || now rewrite <- D2). now injection E1 as <-. }
  destruct (open_pages _ _ _ E1) as (F1 & F2 & F3 & F4). unfold flush, db_write, with_header in EF. cbn [db_io db_kind db_header db_pages] in EF. rewrite EH, F1 in EF. fold h' in EF. cbv zeta in EF. fold (header_page h') in EF. unfold wr_seq in EF. cbn [wr_bytes res_bind] in EF.
  rewrite (open_nones _ _ _ E1), wr_nones in EF. apply (f_equal (fun r => match r with DOk x => db_io x | _ => [] end)) in EF. cbn [db_io] in EF. rewrite <- EF. unfold flush, db_write, star in FS. cbn [db_io db_kind db_header db_pages] in FS. fold n in FS. fold h' in FS. cbv zeta in FS. fold (header_page h') in FS. unfold wr_seq in FS. cbn [wr_bytes res_bind] in FS.
  rewrite N.add_0_l, LH, D1, map_app, (open_nones _ _ _ HO) in FS. change (dh_page_size h') with ps in FS. fold n in FS. rewrite (wr_all_app _ _ _ _ (wr_nones b ps (N.to_nat (n - 1)) _ ps)), map_map in FS. replace (ps + N.of_nat (N.to_nat (n - 1)) * ps) with (n * ps) in FS by nia.
  change (map (fun x : page => lpage_write b ps (Some x)) l) with (map (page_write b ps) l) in FS. destruct (P3 (write_at io 0 (header_page h'))) as [X|X].
  - rewrite X in FS. apply (f_equal (fun r => match r with DOk x => db_io x | _ => [] end)) in FS. cbn [db_io] in FS. rewrite <- FS, P1. apply write_segs_swap; [exact NE|]. rewrite LH. eapply Forall_impl; [|exact P2]. cbv beta. intros x Hx. lia.
  - exfalso. destruct (wr_all (map (page_write b ps) l) (write_at io 0 (header_page h'), n * ps)) as [s| |] eqn:E; [now apply (X s)|easy|easy].
Qed.
(** It can be done. *)
Lemma appended_runs b k io d G A l : db_open io k = DOk d -> stores b d G A -> 1 <= dh_next (db_header d) ->
  Forall (fun p => page_consistent b k (dh_page_size (db_header d)) p /\ page_writes b (dh_page_size (db_header d)) p) l -> exists io2, appended b k io l io2.
Proof.
  intros HO HS H1 HL. pose proof HS as ((S0 & S1 & S2 & S3 & S4) & _). destruct (open_pages _ _ _ HO) as (D1 & D2 & D3 & D4). set (ps := dh_page_size (db_header d)) in *. set (n := dh_next (db_header d)) in *.
  assert (exists s, wr_all (map (page_write b ps) l) (io, n * ps) = Ok s) as [[io1 z] EW].
  { destruct (pages_write_ok b k ps (map Some l) io (n * ps)) as [s E]; [apply Forall_forall; intros e He; apply in_map_iff in He as (p & <- & Hp); rewrite Forall_forall in HL; now apply HL|]. exists s. rewrite map_map in E. exact E. }
  assert (Forall (page_inside b k ps) l) as HI by (eapply Forall_impl; [|exact HL]; intros p [X _]; now apply consistent_inside).
  destruct (pages_pieces b k ps l HI _ _ _ EW) as (segs & P1 & P2 & _). cbn [fst snd] in P1. assert (ps <= n * ps) as HN by nia.
  assert (exists d1, db_open io1 k = DOk d1) as [d1 E1].
  { pose proof (open_header b _ _ _ _ _ HO HS) as E. pose proof (has_len _ _ _ E) as EL. apply has_get in E as [_ E]. rewrite len_dbhdr_enc in *. assert (has io1 0 (dbhdr_enc (db_header d))) as HH.
    { apply has_get. split; [lia|]. rewrite len_dbhdr_enc. intros x Hx. rewrite <- E by easy. subst io1. apply write_segs_frame; [lia|]. intro HC. unfold covered in HC. apply Exists_exists in HC as (s & Hs & [X _]). rewrite Forall_forall in P2. apply P2 in Hs. lia. }
    unfold db_open. rewrite (dbhdr_wr k (db_header d)) by (easy || now rewrite <- D2). now eexists. }
  destruct (flush_ok b (with_header d1 (with_next (n + len l) (db_header d1)))) as [d2 E2].
  { intros i p E. unfold with_header in E. cbn [db_pages] in E. destruct (open_pages _ _ _ E1) as (_ & _ & _ & F4). apply F4 in E. discriminate. }
  exists (db_io d2), d, io1, z, d1, d2. split; [exact HO|]. cbv zeta. fold ps n. now repeat split.
Qed.
Lemma appended_bytes b k io d G A l io2 x : db_open io k = DOk d -> stores b d G A -> 1 <= dh_next (db_header d) ->
  Forall (fun p => page_consistent b k (dh_page_size (db_header d)) p /\ page_writes b (dh_page_size (db_header d)) p) l -> appended b k io l io2 ->
  dh_page_size (db_header d) <= x -> x < dh_next (db_header d) * dh_page_size (db_header d) -> x < len io -> getN io2 x = getN io x.
Proof.
  intros HO HS H1 HL (d0 & io1 & z & d1 & d2 & E0 & EW & E1 & EF & <-) X1 X2 X3. rewrite HO in E0. injection E0 as <-. pose proof HS as ((S0 & S1 & S2 & S3 & S4) & _). destruct (open_pages _ _ _ HO) as (D1 & D2 & D3 & D4).
  set (ps := dh_page_size (db_header d)) in *. set (n := dh_next (db_header d)) in *. assert (Forall (page_inside b k ps) l) as HI by (eapply Forall_impl; [|exact HL]; intros p [X _]; now apply consistent_inside).
  destruct (pages_pieces b k ps l HI _ _ _ EW) as (segs & P1 & P2 & _). cbn [fst snd] in P1. rewrite Forall_forall in P2.
  assert (getN io1 x = getN io x) as EX. { rewrite P1. apply write_segs_frame; [lia|]. intro HC. unfold covered in HC. apply Exists_exists in HC as (s & Hs & [X _]). apply P2 in Hs. lia. }
  assert (db_header d1 = db_header d) as EH.
  { pose proof (open_header b _ _ _ _ _ HO HS) as E. pose proof (has_len _ _ _ E) as EL. apply has_get in E as [_ E]. rewrite len_dbhdr_enc in *. assert (has io1 0 (dbhdr_enc (db_header d))) as HH.
    { apply has_get. split; [lia|]. rewrite len_dbhdr_enc. intros y Hy. rewrite <- E by easy. subst io1. apply write_segs_frame; [lia|]. intro HC. unfold covered in HC. apply Exists_exists in HC as (s & Hs & [X _]). apply P2 in Hs. nia. }
    unfold db_open in E1. rewrite (dbhdr_wr k (db_header d)) in E1 by (easy || now rewrite <- D2). now injection E1 as <-. }
  destruct (open_pages _ _ _ E1) as (F1 & F2 & F3 & F4). set (h' := with_next (n + len l) (db_header d)) in *. rewrite EH in EF. fold h' in EF. unfold flush, db_write, with_header in EF. cbn [db_io db_kind db_header db_pages] in EF. rewrite F1 in EF. cbv zeta in EF. fold (header_page h') in EF.
  unfold wr_seq in EF. cbn [wr_bytes res_bind] in EF. rewrite (open_nones _ _ _ E1), wr_nones in EF. apply (f_equal (fun r => match r with DOk x => db_io x | _ => [] end)) in EF. cbn [db_io] in EF. rewrite <- EF, <- EX.
  assert (len (header_page h') = ps) as LH by (apply len_header_page; exact S2). assert (header_page h' <> []) as NE by (intro E; rewrite E, len_nil in LH; lia). rewrite getN_write_at by exact NE. rewrite LH. replace (x <? 0) with false by lia. now replace (x <? 0 + ps) with false by lia.
Qed.
