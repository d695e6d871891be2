(** * Property C122: databases whose header gives a page size below 40 *)
From Coq Require Import NArith ZArith List Bool Lia Sorted.
From Coq Require Import ZifyBool ZifyNat ZifyN.
From Verif Require Import Base BaseFacts Str StrFacts Schema SchemaFacts Oa OaFacts Rows RowFacts Page PageFacts PageRw AllocFacts Db DbFacts DbFlush DbFresh Layout LayoutDb Insert AcceptStr AcceptPage AcceptDb RowShape
  Device DeviceTree Dump DumpFacts Cli CliList Listing Compose PropListing PropStored PropLayout PropAcceptDb.
Import ListNotations.
Open Scope N_scope.

(** ** Spec *)
(** Without room for the header, an index page is as in C116 (it does not depend on the page size).  A data page is only accepted in release builds, and only if it counts no row at all. *)
Definition small_page_in (b : build) (ps : N) (buf : list N) (pos fin : N) : Prop :=
  number buf pos 4 = Some 0 /\ exists f, getN buf (pos + 27) = Some f /\
    if N.testbit f 6 then index_in buf pos fin else b = Release /\ number buf (pos + 24) 3 = Some 0 /\ pos + 40 <= len buf /\ fin = pos + ps + 2 ^ 32.
Definition small_page_at (b : build) (io : list N) (ps i : N) : Prop := exists lim fin, number io 12 4 = Some lim /\ 1 <= i < lim /\ small_page_in b ps io (i * ps) fin.
Inductive small_pages_from (b : build) (io : list N) (ps last : N) : N -> list N -> Prop :=
| small_last : small_page_at b io ps last -> small_pages_from b io ps last last [last]
| small_step i j l : i <> last -> small_page_at b io ps i -> number io (i * ps + 12) 4 = Some j -> i < j -> small_pages_from b io ps last j l -> small_pages_from b io ps last i (i :: l).

(** ** Pages *)
Lemma small_heap b ps heap : ps < 40 -> page_heap_size b ps = Ok heap -> b = Release /\ heap = 2 ^ 32 + ps - 40.
Proof.
  intros HP H. unfold page_heap_size, res_bind, wsub, ovf in H. destruct (32 <=? ps) eqn:E.
  - destruct (8 <=? ps - 32) eqn:E2; [lia|]. destruct b; [discriminate|]. injection H as <-. split; [reflexivity|]. change (2 ^ 32) with 4294967296. rewrite N.mod_small by lia. lia.
  - destruct b; [discriminate|]. change (2 ^ 32) with 4294967296 in *. rewrite N.mod_small in H by lia. destruct (8 <=? ps + 4294967296 - 32) eqn:E2; [|lia]. injection H as <-. split; [reflexivity|]. lia.
Qed.
Lemma small_heap_ok ps : ps < 40 -> page_heap_size Release ps = Ok (2 ^ 32 + ps - 40).
Proof.
  intro HP. unfold page_heap_size, res_bind, wsub, ovf. change (2 ^ 32) with 4294967296. destruct (32 <=? ps) eqn:E.
  - destruct (8 <=? ps - 32) eqn:E2; [lia|]. rewrite N.mod_small by lia. f_equal. lia.
  - rewrite N.mod_small by lia. destruct (8 <=? ps + 4294967296 - 32) eqn:E2; [|lia]. f_equal. lia.
Qed.
Lemma no_group buf e : len buf + 36 <= e -> forall n gs p, rd_count n rd_rgroup buf e = Ok (gs, p) -> n = 0%nat /\ gs = [].
Proof.
  intros HE [|n] gs p H; [cbn [rd_count] in H; unfold ret in H; now injection H as <- _|]. exfalso. cbn [rd_count] in H. apply bind_inv in H as (g & q & H & _). apply rgroup_numbers in H as (_ & _ & _ & _ & U & _). apply number_len in U; [|discriminate]. lia.
Qed.
Lemma small_exact b ps db buf pos fin : bytes_ok buf -> len buf < 2 ^ 32 - 36 -> ps < 40 ->
  ((exists p, rd_page b (rd_dstr b) ps db buf pos = Ok (p, fin)) <-> small_page_in b ps buf pos fin) /\ forall p, rd_page b (rd_dstr b) ps db buf pos = Ok (p, fin) -> rows_of_page p = [] /\ header_layout db buf pos (pg_header p).
Proof.
  intros HB HL HP. assert (forall p, rd_page b (rd_dstr b) ps db buf pos = Ok (p, fin) -> small_page_in b ps buf pos fin /\ rows_of_page p = [] /\ header_layout db buf pos (pg_header p)) as HR.
  { intros p H. unfold rd_page in H. apply bind_inv in H as (h & q & RH & H). pose proof RH as RH2. apply phdr_layout in RH as [-> LY]. pose proof LY as (M & _ & (t & T & _) & _ & _ & _ & (c & C & _) & F & _ & U). apply number_len in U as LU; [|discriminate]. rewrite number_1 in F.
    unfold is_index_page in H. destruct (N.testbit (ph_flags h) 6) eqn:EF.
    + apply bind_inv in H as (x & q & R & H). apply ret_inv in H as [<- <-]. split; [|split; [reflexivity|exact LY]]. split; [exact M|]. exists (ph_flags h). split; [exact F|]. rewrite EF. apply icontent_exact; [lia|]. now exists x.
    + apply bind_inv in H as (x & q & R & H). apply ret_inv in H as [<- <-]. assert (ph_counts h = counts_of c) as EC.
      { unfold rd_phdr in RH2. apply bind_inv in RH2 as (vs & q1 & R1 & R2). cbn [phdr_fields rd_fields u16f u32f rd_field u8f] in R1. invr. apply lift_eq in R2 as [R2 _]. apply Ok_eq in R2 as <-. cbn [ph_type ph_counts].
        f_equal; match goal with X : number buf ?p ?w = Some ?x, Y : number buf ?p' ?w = Some ?y |- ?x = ?y => replace p with p' in X by lia; congruence end. }
      unfold rd_dcontent in R. apply bind_inv in R as (dh & q2 & R1 & R). apply bind_inv in R as (heap & q1 & R2 & R).
      apply lift_eq in R2 as [R2 <-]. apply small_heap in R2 as [-> EH]; [|exact HP]. change (2 ^ 32) with 4294967296 in *.
      apply bind_inv in R as (base & q3 & RT & R). unfold tell in RT. apply Ok_eq in RT. injection RT as <- <-.
      apply bind_inv in R as (u & q3 & RS & R). unfold seek_to in RS. apply Ok_eq in RS. injection RS as _ <-.
      apply bind_inv in R as (gs & q4 & RG & R). apply bind_inv in R as (u2 & q5 & RS & R). unfold seek_to in RS. apply Ok_eq in RS. injection RS as _ <-.
      apply bind_inv in R as (rows & q6 & RR & R). apply bind_inv in R as (u3 & q7 & RV & R). apply guard_inv in RV as [RV <-].
      apply bind_inv in R as (u4 & q8 & RS & R). unfold seek_to in RS. apply Ok_eq in RS. injection RS as _ <-. apply ret_inv in R as [<- <-].
      cbn [dhdr_fields rd_fields u16f rd_field] in R1. invr.
      match goal with X : number buf (_ + N.of_nat 2 + N.of_nat 2 + N.of_nat 2) 2 = Some _ |- _ => apply number_len in X as HL40; [|discriminate] end.
      apply no_group in RG as [RG ->]; [|lia]. cbn [flat_map rd_rows_at] in RR. apply Ok_eq in RR. injection RR as <- <-.
      unfold num_row_groups in RG. rewrite EC in RG, RV. cbn [counts_of c_rows c_valid] in RG, RV. change (len (@nil (N * row))) with 0 in RV. apply N.eqb_eq in RV.
      assert (c = 0) as ->. { pose proof (N.div_mod c 8192 ltac:(discriminate)). assert (c mod 8192 = 0) by (assert (16 * ((c mod 8192 + 15) / 16) = 0) by lia; pose proof (N.div_mod (c mod 8192 + 15) 16 ltac:(discriminate)); pose proof (N.mod_lt (c mod 8192 + 15) 16 ltac:(discriminate)); lia). lia. }
      split; [|split; [reflexivity|exact LY]]. split; [exact M|]. exists (ph_flags h). split; [exact F|]. rewrite EF. split; [reflexivity|]. split; [exact C|]. split; [lia|]. lia. }
  split; [|intros p H; now apply HR in H]. split; [intros [p H]; now apply HR in H|].
  intros (M & f & F & H). assert (pos + 32 <= len buf) as HL2.
  { destruct (N.testbit f 6); [destruct H as (_ & H & _); apply number_len in H; [lia|discriminate]|]. destruct H as (_ & _ & H & _). lia. }
  destruct (phdr_total db buf pos M HL2) as [h RH]. unfold rd_page, bind. rewrite RH. pose proof RH as RH2. apply phdr_layout in RH as [_ (_ & _ & (t & T & _) & _ & _ & _ & (c & C & _) & F2 & _)]. rewrite number_1 in F2. assert (ph_flags h = f) as -> by congruence. unfold is_index_page. destruct (N.testbit f 6).
  - apply icontent_exact in H as [x X]; [|exact HL2]. rewrite X. unfold ret. eauto.
  - destruct H as (-> & C0 & H40 & ->). assert (ph_counts h = counts_of c) as EC.
    { unfold rd_phdr in RH2. apply bind_inv in RH2 as (vs & q1 & R1 & R2). cbn [phdr_fields rd_fields u16f u32f rd_field u8f] in R1. invr. apply lift_eq in R2 as [R2 _]. apply Ok_eq in R2 as <-. cbn [ph_type ph_counts].
      f_equal; match goal with X : number buf ?p ?w = Some ?x, Y : number buf ?p' ?w = Some ?y |- ?x = ?y => replace p with p' in X by lia; congruence end. }
    assert (c = 0) as -> by congruence. unfold rd_dcontent, bind. destruct (dhdr_total buf (pos + 32)) as [vs V]; [lia|]. rewrite V. rewrite small_heap_ok by exact HP. change (2 ^ 32) with 4294967296 in *. remember (4294967296 + ps - 40) as heap eqn:EH. unfold lift, tell, seek_to. cbv beta iota. rewrite EC.
    cbn. unfold ret, guard. eexists. f_equal. f_equal. lia.
Qed.

(** ** Files *)
Lemma small_fresh b io k d i p : bytes_ok io -> len io < 2 ^ 32 - 36 -> fresh b io k d -> dh_page_size (db_header d) < 40 -> page_of b d i p ->
  rows_of_page p = [] /\ number io (i * dh_page_size (db_header d) + 12) 4 = Some (ph_next (pg_header p)) /\ small_page_at b io (dh_page_size (db_header d)) i.
Proof.
  intros HB HL F HP H. pose proof (fresh_layout b io k d F) as (_ & _ & _ & T & _). apply (fresh_page b io k d i p HB F) in H as [R [fin H]]. destruct (small_exact b _ k io (i * dh_page_size (db_header d)) fin HB HL HP) as [X1 X2].
  destruct (X2 p H) as [Y1 (_ & _ & _ & Y2 & _)]. split; [exact Y1|]. split; [exact Y2|]. exists (dh_next (db_header d)), fin. split; [exact T|]. split; [exact R|]. apply X1. now exists p.
Qed.
Lemma small_back b io k d i : bytes_ok io -> len io < 2 ^ 32 - 36 -> fresh b io k d -> dh_page_size (db_header d) < 40 -> small_page_at b io (dh_page_size (db_header d)) i -> exists p, page_of b d i p.
Proof.
  intros HB HL F HP (lim & fin & E & R & H). pose proof (fresh_layout b io k d F) as (_ & _ & _ & T & _). assert (lim = dh_next (db_header d)) as -> by congruence. destruct (small_exact b _ k io (i * dh_page_size (db_header d)) fin HB HL HP) as [X1 _].
  apply X1 in H as [p H]. exists p. apply (fresh_page b io k d i p HB F). split; [exact R|]. now exists fin.
Qed.
(** The same for a file: a page of a database with such a page size can be loaded if and only if it is an index page, or, in release builds, a data page that counts no rows. *)
Theorem c122_page : forall b io db d ps i, bytes_ok io -> len io < 2 ^ 32 - 36 -> only_read b io db d -> number io 4 4 = Some ps -> ps < 40 -> 1 <= i ->
  ((exists p, snd (load_page b d i) = DOk p) <-> small_page_at b io ps i) /\ forall p, snd (load_page b d i) = DOk p -> rows_of_page p = [].
Proof.
  intros b io db d ps i HB HL HO HN HP Hi. destruct (size_is b io db d ps HB HO HN) as [-> F].
  assert (forall p, snd (load_page b d i) = DOk p <-> page_of b d i p) as HR.
  { intro p. destruct (i <=? len (db_pages d)) eqn:EI.
    - rewrite load_page_present by lia. unfold page_of. destruct (getN_lt_Some (db_pages d) (i - 1)) as [[q|] E]; [lia| |]; rewrite E.
      + split; [intros [= ->]; split; [exact Hi|now left]|]. intros [_ [H|[H _]]]; [congruence|discriminate].
      + split; [intro H; split; [exact Hi|now right]|]. intros [_ [H|[_ H]]]; [discriminate|exact H].
    - rewrite load_page_absent by lia. split; intro H; [discriminate|]. apply page_of_range in H. lia. }
  split; [split|].
  - intros [p H]. apply HR in H. now apply (small_fresh b io db d i p HB HL F HP).
  - intro H. apply (small_back b io db d i HB HL F HP) in H as [p H]. exists p. now apply HR.
  - intros p H. apply HR in H. now apply (small_fresh b io db d i p HB HL F HP).
Qed.
Print Assumptions c122_page.
(** No table has a row: if the rows of kind [k] can be read at all, there are none.  They can be read if and only if the table is there and its pages are such pages. *)
Theorem c122_rows : forall b io db d ps k, bytes_ok io -> len io < 2 ^ 32 - 36 -> only_read b io db d -> number io 4 4 = Some ps -> ps < 40 ->
  (forall rows, snd (iter_rows b k d) = Some (DOk rows) -> rows = []) /\
  (snd (iter_rows b k d) = Some (DOk []) <-> exists first last is, table_at db io k first last /\ small_pages_from b io ps last first is).
Proof.
  intros b io db d ps k HB HL HO HN HP. destruct (size_is b io db d ps HB HO HN) as [-> F].
  assert (forall last i l, linked b d last i l -> rows_of l = [] /\ small_pages_from b io (dh_page_size (db_header d)) last i (map fst l)) as HK.
  { intros last i l H. induction H as [p H|i p l NE H LT _ [IH1 IH2]]; cbn [map fst rows_of flat_map snd].
    - destruct (small_fresh b io db d last p HB HL F HP H) as (X1 & _ & X2). rewrite X1. split; [reflexivity|]. now apply small_last.
    - destruct (small_fresh b io db d i p HB HL F HP H) as (X1 & X2 & X3). rewrite X1. split; [exact IH1|]. now apply small_step with (ph_next (pg_header p)). }
  split; [|split].
  - intros rows H. apply iter_rows_iff in H as (i & t & l & _ & H & -> & _). now apply HK in H.
  - intro H. apply iter_rows_iff in H as (i & t & l & FT & H & _ & _). apply HK in H as [_ H]. exists (tb_first t), (tb_last t), (map fst l). split; [|exact H]. apply (find_exact b io db d k F). now exists i, t.
  - intros (first & last & is & HT & H). apply (find_exact b io db d k F) in HT as (i & t & FT & <- & <-). apply iter_rows_iff.
    assert (exists l, linked b d (tb_last t) (tb_first t) l) as [l LK]; [|destruct (HK _ _ _ LK) as [E _]; exists i, t, l; rewrite E; now repeat split].
    clear FT. induction H as [H|j j2 is NE H N LT _ (l & IH)].
    + apply (small_back b io db d) in H as [p H]; try assumption. exists [(tb_last t, p)]. now constructor.
    + apply (small_back b io db d) in H as [p H]; try assumption. destruct (small_fresh b io db d j p HB HL F HP H) as (_ & N' & _). assert (j2 = ph_next (pg_header p)) as -> by congruence. exists ((j, p) :: l). now constructor.
Qed.
Print Assumptions c122_rows.
(** So nothing is listed, and an export writes nothing. *)
Theorem c122_commands : forall b io db d ps depth, bytes_ok io -> len io < 2 ^ 32 - 36 -> number io 4 4 = Some ps -> ps < 40 ->
  (forall out, list_playlists b depth io = Some (Done out) -> out = ([], false)) /\
  (forall out canon ops, db_open io db = DOk d -> export b depth d out canon = Some (Done ops) -> ops = []).
Proof.
  intros b io db d ps depth HB HL HN HP. assert (forall db d k rows, db_open io db = DOk d -> table_in b db (db_header d) io k (DOk rows) -> rows = []) as HE.
  { intros db1 d1 k rows HO HT. pose proof (iter_rows_is b io db1 k d1 _ HB (open_fresh b io db1 d1 HO) HT) as E. now apply (c122_rows b io db1 d1 ps k HB HL (or_open _ _ _ _ HO) HN HP) in E. }
  split.
  - intros out H. unfold list_playlists in H. destruct (db_open io DbPlain) as [d1|e|] eqn:HO; [|discriminate|discriminate].
    assert (forall rows, snd (iter_rows b KPlaylistTreeNode d1) = Some (DOk rows) -> rows = []) as H0 by (apply (c122_rows b io DbPlain d1 ps KPlaylistTreeNode HB HL (or_open _ _ _ _ HO) HN HP)).
    destruct (table_rows b KPlaylistTreeNode node_of_row d1) as [ns|e|] eqn:ET; [|discriminate|discriminate]. assert (ns = []) as ->.
    { unfold table_rows in ET. destruct (snd (iter_rows b KPlaylistTreeNode d1)) as [[rows|e|]|]; try discriminate. rewrite (H0 rows eq_refl) in ET. cbn in ET. congruence. }
    repeat match type of H with match ?x with _ => _ end = _ => destruct x; try discriminate end. destruct depth as [|depth]; cbn in H; [discriminate|]. congruence.
  - intros out canon ops HO H. pose proof (c77_export b io db d out canon depth HB HO) as HX. rewrite H in HX. destruct HX as (rn & re & rt & ns & es & raw & tr & ts & c & Tn & _ & _ & Fn & _ & _ & _ & HT & _ & ->).
    rewrite (HE db d _ rn HO Tn) in Fn. inversion Fn; subst. destruct depth as [|depth]; cbn in HT; [discriminate|]. injection HT as <-. reflexivity.
Qed.
Print Assumptions c122_commands.

(** A file with page size 39 and one table, for keys, whose only page is page 2, without rows; the bytes of page 1 overlap the header.  Release builds find no rows, debug builds panic.  With a
    count of one row, release builds refuse the page. *)
Definition c122_io (count : N) : list N :=
  le_enc 4 0 ++ le_enc 4 39 ++ le_enc 4 1 ++ le_enc 4 3 ++ le_enc 4 0 ++ le_enc 4 7 ++ le_enc 4 0 ++ le_enc 4 5 ++ le_enc 4 3 ++ le_enc 4 2 ++ le_enc 4 2 ++ zeros 34 ++
  le_enc 4 0 ++ le_enc 4 2 ++ le_enc 4 5 ++ zeros 12 ++ le_enc 3 count ++ zeros 13.
Definition c122_db (count : N) : database := match db_open (c122_io count) DbPlain with DOk d => d | _ => mk_db [] DbPlain (mk_dbhdr 0 0 0 0 0 []) [] end.
Lemma c122_len n : len (c122_io n) = 118.
Proof. reflexivity. Qed.
Lemma c122_page2 : small_page_at Release (c122_io 0) 39 2.
Proof. exists 3, (2 * 39 + 39 + 2 ^ 32). split; [reflexivity|]. split; [lia|]. split; [reflexivity|]. exists 0. split; [reflexivity|]. cbn [N.testbit]. split; [reflexivity|]. split; [reflexivity|]. split; [rewrite c122_len; lia|reflexivity]. Qed.
Example c122_example_hyp : bytes_ok (c122_io 0) /\ len (c122_io 0) < 2 ^ 32 - 36 /\ only_read Release (c122_io 0) DbPlain (c122_db 0) /\ number (c122_io 0) 4 4 = Some 39 /\
  table_at DbPlain (c122_io 0) KKey 2 2 /\ small_pages_from Release (c122_io 0) 39 2 2 [2].
Proof.
  split; [repeat constructor; lia|]. split; [rewrite c122_len; reflexivity|]. split; [apply or_open; reflexivity|]. split; [reflexivity|]. split.
  - exists 1, 0, 5. split; [reflexivity|]. split; [lia|]. split; [reflexivity|]. split; [cbn; auto 10|]. split; [reflexivity|]. split; [reflexivity|]. intros t' x' H. lia.
  - apply small_last. exact c122_page2.
Qed.
Example c122_example : snd (iter_rows Release KKey (c122_db 0)) = Some (DOk []) /\ snd (iter_rows Debug KKey (c122_db 0)) = Some DPanic /\
  (exists e, snd (iter_rows Release KKey (c122_db (1 + 8192))) = Some (DErr e)).
Proof. split; [vm_compute; reflexivity|]. split; [vm_compute; reflexivity|]. eexists. vm_compute. reflexivity. Qed.
