(** * Property C123: what dump-pdb prints follows from the bytes of the file *)
From Coq Require Import NArith ZArith List Bool Lia Sorted.
From Coq Require Import ZifyBool ZifyNat ZifyN.
From Verif Require Import Base BaseFacts Utf UtfFacts ListText Player Str StrFacts Schema SchemaFacts Oa OaFacts Rows RowFacts Page PageFacts PageRw AllocFacts Db DbFacts DbFlush DbFresh Writable Dump DumpFacts PropDump Layout LayoutDb Insert Accept AcceptStr AcceptPage AcceptDb PropAcceptDb PropLayout PropDb.
Import ListNotations.
Open Scope N_scope.

(** ** Spec *)
(** A text of the file that can be printed: stored as bytes, it is the UTF-8 of some text. *)
Definition text_prints (s : dstr) : Prop := match s with DSShort v | DSAscii v => exists t, ustr_ok t /\ utf8_enc t = v | _ => True end.
(** What a row says: its kind, its numbers and its strings; nothing if the type of the page is unknown. *)
Definition content : Type := option (rkind * list N * list dstr).
Definition row_shown (b : build) (db : dbtype) (io : list N) (t pos : N) (x : content) : Prop :=
  match x with
  | None => forall k, ~ In (t, k) (page_types db)
  | Some (k, ns, ds) => In (t, k) (page_types db) /\ (exists q, row_in b k io pos ns ds q) /\ Forall text_prints ds
  end.
(** The page at [pos] shows rows that say [xs] and the index entries [es]. *)
Definition page_shown (b : build) (db : dbtype) (io : list N) (ps pos : N) (xs : list content) (es : list N) : Prop := exists f, getN io (pos + 27) = Some f /\
  if N.testbit f 6
  then xs = [] /\ number io (pos + 56) 2 = Some (len es) /\ forall j e, getN es j = Some e -> number io (pos + 60 + 4 * j) 4 = Some e /\ e <= 0x1FFFFFF8
  else es = [] /\ exists t c os, number io (pos + 8) 4 = Some t /\ number io (pos + 24) 3 = Some c /\
    StronglySorted N.lt os /\ (forall o, In o os <-> present_at io (pos + ps) ((c mod 8192 + 15) / 16) o) /\ Forall2 (fun o x => row_shown b db io t (pos + 40 + o) x) os xs.
(** The pages that are shown for table [t]: none if its type is unknown and such tables are not asked for. *)
Definition table_shown (b : build) (db : dbtype) (io : list N) (ps : N) (unknown : bool) (t : N) (l : list N) : Prop := exists x, number io (28 + 16 * t) 4 = Some x /\
  ((unknown = false /\ (forall k, ~ In (x, k) (page_types db)) /\ l = []) \/
   ((unknown = true \/ exists k, In (x, k) (page_types db)) /\ exists first last, number io (36 + 16 * t) 4 = Some first /\ number io (40 + 16 * t) 4 = Some last /\ pages_from b db io ps last first l)).
(** All tables, and what their pages show. *)
Definition file_shown (b : build) (db : dbtype) (io : list N) (ps : N) (unknown : bool) (xs : list content) (es : list N) : Prop := exists ls ys,
  number io 8 4 = Some (len ls) /\ (forall t l, getN ls t = Some l -> table_shown b db io ps unknown t l) /\
  Forall2 (fun i y => page_shown b db io ps (i * ps) (fst y) (snd y)) (concat ls) ys /\ xs = concat (map fst ys) /\ es = concat (map snd ys).
(** What the lines of the output say. *)
Definition content_of (r : row) : content :=
  match r with RRow k vs c => Some (k, numbers vs, texts vs ++ match c with Some a => oa_items a | None => [] end) | RUnknown => None end.
Definition rows_shown (evs : list event) : list content := flat_map (fun e => match e with EvRow r => [content_of r] | _ => [] end) evs.
Definition entries_shown (evs : list event) : list N := flat_map (fun e => match e with EvEntry x => [x] | _ => [] end) evs.
Definition no_message (evs : list event) : Prop := forall i e, ~ In (EvError i e) evs.

(** ** Pages *)
Lemma prints_text s : printable_str s <-> text_prints s.
Proof.
  destruct s as [v|v|v|v]; cbn [printable_str text_prints]; try easy; (split;
    [intro H; destruct (utf8_dec v) as [t|] eqn:E; [|easy]; exists t; split; [now apply (utf8_dec_ok v)|now apply utf8_dec_inv]|intros (t & H & <-); now rewrite (utf8_dec_enc t H)]).
Qed.
Lemma strings_of r k ns ds : content_of r = Some (k, ns, ds) -> row_strings r = ds.
Proof. destruct r as [k' vs c|]; [|discriminate]. cbn [content_of row_strings]. intro H. injection H as _ _ <-. reflexivity. Qed.
Lemma content_says r k ns ds : content_of r = Some (k, ns, ds) <-> row_says r k ns ds.
Proof. destruct r as [k' vs c|]; cbn [content_of row_says]; [|easy]. split; [intro H; injection H as <- <- <-; easy|intros (-> & <- & <-); reflexivity]. Qed.
Definition page_entries (p : page) : list N := match pg_content p with PIndex c => ic_entries c | _ => [] end.
Definition page_contents (p : page) : list content := map content_of (rows_of_page p).
Lemma row_shown_exact b db io t pos pt r q x : bytes_ok io -> len io < 2 ^ 64 -> type_number db pt t -> rd_row (rd_dstr b) pt io pos = Ok (r, q) ->
  (row_shown b db io t pos x <-> x = content_of r /\ forall s, In s (row_strings r) -> printable_str s).
Proof.
  intros HB HL HT HR. destruct pt as [k|cc]; cbn [type_number] in HT.
  - destruct x as [[[k' ns] ds]|]; cbn [row_shown].
    + split.
      * intros (H & (q' & HQ) & HP). assert (k' = k) as -> by now apply (type_unique db t). apply row_exact in HQ as (r' & R' & S'); [|exact HB|exact HL]. assert (r' = r) as -> by congruence. apply content_says in S'. split; [now symmetry|].
        rewrite (strings_of _ _ _ _ S'). intros s HS. rewrite Forall_forall in HP. now apply prints_text, HP.
      * intros (H & HP). symmetry in H. rewrite (strings_of _ _ _ _ H) in HP. apply content_says in H. pose proof (read_kind _ _ k' _ _ _ _ ns ds HR H) as E. injection E as ->. split; [exact HT|]. split; [exists q; apply row_exact; [exact HB|exact HL|]; now exists r|].
        apply Forall_forall. intros s HS. now apply prints_text, HP.
    + split; [intro H; now destruct (H k)|]. intros [H _]. destruct r as [k' vs c|]; [discriminate|]. cbn [rd_row] in HR. apply bind_inv in HR as (vs & p1 & _ & HR). destruct (row_oarr k) as [[off n]|]; [apply bind_inv in HR as (c & p2 & _ & HR)|]; apply ret_inv in HR as [HR _]; discriminate.
  - cbn [rd_row] in HR. apply ret_inv in HR as [<- _]. cbn [content_of row_strings]. destruct HT as [_ HT]. destruct x as [[[k ns] ds]|]; cbn [row_shown]; split; try easy. intros [H _]. now apply HT in H.
Qed.
Lemma page_shown_exact b db io ps pos p fin xs es : bytes_ok io -> len io < 2 ^ 64 -> 40 <= ps -> rd_page b (rd_dstr b) ps db io pos = Ok (p, fin) ->
  (page_shown b db io ps pos xs es <-> printable p /\ xs = page_contents p /\ es = page_entries p).
Proof.
  intros HB HL HP R. pose proof (fun c => page_sorted b (rd_dstr b) ps db io pos p fin c R) as HS. pose proof R as R2. apply page_layout in R2 as [(_ & _ & (t & T & TN) & _ & _ & _ & (c & C & C1 & C2) & F & _) H]; [|exact HB|exact HP].
  rewrite number_1 in F. unfold page_shown, page_contents, page_entries, printable, rows_of_page. destruct (pg_content p) as [d|ic] eqn:EC.
  2:{ destruct H as [H I]. apply (testbit_div _ 6) in H. destruct I as (_ & _ & _ & _ & _ & _ & _ & I1 & _ & I2 & I3). split.
      - intros (f & F2 & H2). assert (f = ph_flags (pg_header p)) as -> by congruence. rewrite H in H2. destruct H2 as (-> & N & H2). assert (len es = len (ic_entries ic)) as EL by congruence.
        assert (es = ic_entries ic) as ->.
        { apply list_ext. intro j. destruct (getN es j) as [e|] eqn:E.
          - destruct (getN_lt_Some (ic_entries ic) j) as [e' E']; [apply getN_Some_lt in E; lia|]. apply H2 in E as [E _]. pose proof (I3 _ _ E') as E2. congruence.
          - destruct (getN (ic_entries ic) j) as [e|] eqn:E'; [|reflexivity]. apply getN_Some_lt in E'. destruct (getN_lt_Some es j) as [e' E2]; [lia|]. congruence. }
        split; [|easy]. intros e HE. apply in_getN in HE as [j HE]. now apply H2 in HE as [_ HE].
      - intros (HE & -> & ->). exists (ph_flags (pg_header p)). split; [exact F|]. rewrite H. split; [reflexivity|]. split; [congruence|]. intros j e E. split; [now apply I3|]. apply HE. apply in_getN. now exists j. }
  specialize (HS d eq_refl). destruct H as (H & (_ & LG & _ & _ & _ & HR) & _). rewrite C1 in LG. rewrite LG in HR.
  assert (N.testbit (ph_flags (pg_header p)) 6 = false) as HF. { destruct (N.testbit (ph_flags (pg_header p)) 6) eqn:E; [|reflexivity]. apply (testbit_div _ 6) in E. change (2 ^ 6) with 64 in E. congruence. }
  assert (forall o, In o (keys (dc_rows d)) <-> present_at io (pos + ps) ((c mod 8192 + 15) / 16) o) as HK.
  { intro o. split.
    - intro HI. unfold keys in HI. apply in_map_iff in HI as ((o' & r) & <- & HI). apply HR in HI as [HI _]. exact HI.
    - intro HI. apply (page_present b ps db io pos p fin d o R EC HB HP). rewrite LG. exact HI. }
  assert (Forall2 (fun o x => row_shown b db io t (pos + 40 + o) x) (keys (dc_rows d)) xs <-> (forall off r s, In (off, r) (dc_rows d) -> In s (row_strings r) -> printable_str s) /\ xs = map content_of (map snd (dc_rows d))) as HX.
  { assert (forall o r, In (o, r) (dc_rows d) -> exists q, rd_row (rd_dstr b) (ph_type (pg_header p)) io (pos + 40 + o) = Ok (r, q)) as HQ by (intros o r HI; now apply HR in HI as [_ HI]).
    clear - HB HL TN HQ. revert xs. induction (dc_rows d) as [|[o r] l IH]; intro xs; cbn [keys map fst snd].
    - split; [intro H; inversion H; subst; easy|intros [_ ->]; constructor].
    - destruct (HQ o r) as [q Q]; [now left|]. pose proof (fun x => row_shown_exact b db io t (pos + 40 + o) _ r q x HB HL TN Q) as HX. specialize (IH (fun o' r' HI => HQ o' r' (or_intror HI))). split.
      + intro H. inversion H as [|o' x l' xs' H1 H2]; subst. apply HX in H1 as [-> H1]. apply IH in H2 as [H2 ->]. split; [|reflexivity]. intros off r' s [HI|HI] HS; [injection HI as <- <-; now apply H1|now apply (H2 off r')].
      + intros [H ->]. constructor; [apply HX; split; [reflexivity|]; intros s HS; apply (H o r); [now left|exact HS]|]. apply IH. split; [|reflexivity]. intros off r' s HI HS. apply (H off r'); [now right|exact HS]. }
  split.
  - intros (f & F2 & H2). assert (f = ph_flags (pg_header p)) as -> by congruence. rewrite HF in H2. destruct H2 as (-> & t' & c' & os & T' & C' & SO & HO & H2). assert (t' = t) as -> by congruence. assert (c' = c) as -> by congruence.
    assert (os = keys (dc_rows d)) as ->. { apply sorted_same; [exact SO|exact HS|]. intro o. now rewrite HO, HK. }
    apply HX in H2 as [H2 ->]. easy.
  - intros (H2 & -> & ->). exists (ph_flags (pg_header p)). split; [exact F|]. rewrite HF. split; [reflexivity|]. exists t, c, (keys (dc_rows d)). split; [exact T|]. split; [exact C|]. split; [exact HS|]. split; [exact HK|]. now apply HX.
Qed.

(** ** Tables *)
Lemma shows_ok : forall l r es, shows l r es (DOk tt) <-> r = DOk tt /\ Forall printable l /\ es = flat_map page_lines l.
Proof.
  induction l as [|p l IH]; intros r es.
  - split; [intro H; inversion H; subst; easy|]. intros (-> & _ & ->). constructor.
  - split.
    + intro H. inversion H as [|p' l' r' es' x HP HS|]; subst. apply IH in HS as (-> & HS & ->). split; [reflexivity|]. split; [now constructor|reflexivity].
    + intros (-> & HP & ->). inversion HP; subst. cbn [flat_map]. constructor; [assumption|]. apply IH. easy.
Qed.
Definition stored (b : build) (db : dbtype) (ps : N) (io : list N) (i : N) (p : page) : Prop := exists q, rd_page b (rd_dstr b) ps db io (i * ps) = Ok (p, q).
Lemma table_pages_from b db io ps h last : bytes_ok io -> len io < 2 ^ 64 -> 40 <= ps -> dh_page_size h = ps -> number io 12 4 = Some (dh_next h) -> forall lo i l, 1 <= lo ->
  table_pages b db h io last lo i l (DOk tt) -> exists is, pages_from b db io ps last i is /\ Forall2 (stored b db ps io) is l.
Proof.
  intros HB HL HP HH HN lo i l Hlo H. remember (DOk tt) as r eqn:ER.
  induction H as [| | | |lo p q H1 H2 H3|lo i p q l r H1 H2 H3 H4 H5 IH]; try discriminate.
  - rewrite HH in *. exists [last]. split; [|repeat constructor; now exists q]. constructor. exists (dh_next h), q. split; [exact HN|]. split; [lia|]. apply page_exact; eauto.
  - rewrite HH in *. destruct IH as (is & I1 & I2); [lia|exact ER|]. exists (i :: is). split; [|constructor; [now exists q|exact I2]].
    assert (i < ph_next (pg_header p)). { assert (i + 1 <= ph_next (pg_header p)); [|lia]. inversion H5; subst; try discriminate; assumption. }
    apply pages_step with (ph_next (pg_header p)); [exact H4| |pose proof H3 as H6; apply page_layout in H6 as [(_ & _ & _ & H6 & _) _]; assumption|assumption|exact I1].
    exists (dh_next h), q. split; [exact HN|]. split; [lia|]. apply page_exact; eauto.
Qed.
Lemma pages_from_table b db io ps h last : bytes_ok io -> len io < 2 ^ 64 -> 40 <= ps -> dh_page_size h = ps -> number io 12 4 = Some (dh_next h) -> forall i is, pages_from b db io ps last i is ->
  forall lo, lo <= i -> exists l, table_pages b db h io last lo i l (DOk tt) /\ Forall2 (stored b db ps io) is l.
Proof.
  intros HB HL HP HH HN i is H. induction H as [(lim & fin & E & R & H)|i j is NE (lim & fin & E & R & H) NX LT HF IH]; intros lo Hlo.
  - assert (lim = dh_next h) as -> by congruence. apply page_exact in H as [p H]; [|exact HB|exact HL|exact HP]. exists [p]. split; [|repeat constructor; now exists fin]. apply (tp_last _ _ _ _ _ _ p fin); [exact Hlo|lia|now rewrite HH].
  - assert (lim = dh_next h) as -> by congruence. apply page_exact in H as [p H]; [|exact HB|exact HL|exact HP]. destruct (IH (i + 1)) as (l & L1 & L2); [lia|]. exists (p :: l). split; [|constructor; [now exists fin|exact L2]].
    assert (ph_next (pg_header p) = j) as EJ. { pose proof H as H6. apply page_layout in H6 as [(_ & _ & _ & H6 & _) _]; [congruence|assumption..]. }
    apply (tp_next _ _ _ _ _ _ _ p fin); [exact Hlo|lia|now rewrite HH|exact NE|now rewrite EJ].
Qed.
Lemma pages_from_unique b db io ps last i l l' : pages_from b db io ps last i l -> pages_from b db io ps last i l' -> l = l'.
Proof.
  intro H. revert l'. induction H as [_|i j l NE _ N _ _ IH]; intros l' H'; inversion H' as [|i' j' l2 NE' _ N' _ H2]; subst; try congruence. f_equal. apply IH. assert (j' = j) as -> by congruence. exact H2.
Qed.
Lemma table_shown_unique b db io ps unknown t l l' : table_shown b db io ps unknown t l -> table_shown b db io ps unknown t l' -> l = l'.
Proof.
  intros (x & X & H) (x' & X' & H'). assert (x' = x) as -> by congruence. destruct H as [(UF & H & ->)|(HU & first & last & H1 & H2 & H3)], H' as [(UF' & H' & ->)|(HU' & first' & last' & H1' & H2' & H3')].
  - reflexivity.
  - destruct HU' as [HU'|[k HU']]; [congruence|now apply H in HU'].
  - destruct HU as [HU|[k HU]]; [congruence|now apply H' in HU].
  - assert (first' = first) as -> by congruence. assert (last' = last) as -> by congruence. now apply (pages_from_unique b db io ps last first).
Qed.
Lemma page_shown_unique b db io ps pos p fin xs es xs' es' : bytes_ok io -> len io < 2 ^ 64 -> 40 <= ps -> rd_page b (rd_dstr b) ps db io pos = Ok (p, fin) ->
  page_shown b db io ps pos xs es -> page_shown b db io ps pos xs' es' -> xs = xs' /\ es = es'.
Proof. intros HB HL HP R H H'. apply (page_shown_exact b db io ps pos p fin) in H, H'; try assumption. destruct H as (_ & -> & ->), H' as (_ & -> & ->). easy. Qed.
Lemma rows_app a c : rows_shown (a ++ c) = rows_shown a ++ rows_shown c.
Proof. apply flat_map_app. Qed.
Lemma entries_app a c : entries_shown (a ++ c) = entries_shown a ++ entries_shown c.
Proof. apply flat_map_app. Qed.
Lemma page_rows p : rows_shown (page_lines p) = page_contents p.
Proof.
  unfold page_lines, page_contents, rows_of_page. cbn [rows_shown flat_map app]. destruct (pg_content p) as [c|c].
  - induction (dc_rows c) as [|x l IH]; [reflexivity|]. cbn [map flat_map app]. now f_equal.
  - cbn [rows_shown flat_map app map]. induction (ic_entries c) as [|x l IH]; [reflexivity|]. exact IH.
Qed.
Lemma page_ents p : entries_shown (page_lines p) = page_entries p.
Proof.
  unfold page_lines, page_entries. cbn [entries_shown flat_map app]. destruct (pg_content p) as [c|c].
  - induction (dc_rows c) as [|x l IH]; [reflexivity|]. exact IH.
  - cbn [entries_shown flat_map app]. induction (ic_entries c) as [|x l IH]; [reflexivity|]. cbn [map flat_map app]. now f_equal.
Qed.
Lemma page_no_message p : no_message (page_lines p).
Proof.
  intros i e [H|H]; [discriminate|]. destruct (pg_content p) as [c|c].
  - apply in_map_iff in H as (x & H & _). discriminate.
  - destruct H as [H|H]; [discriminate|]. apply in_map_iff in H as (x & H & _). discriminate.
Qed.
Lemma pages_no_message l : no_message (flat_map page_lines l).
Proof. intros i e H. apply in_flat_map in H as (p & _ & H). now apply page_no_message in H. Qed.
(** The pages that are printed show what the bytes show. *)
Lemma stored_shown b db io ps : bytes_ok io -> len io < 2 ^ 64 -> 40 <= ps -> forall is l, Forall2 (stored b db ps io) is l -> Forall printable l ->
  exists ys, Forall2 (fun i y => page_shown b db io ps (i * ps) (fst y) (snd y)) is ys /\ rows_shown (flat_map page_lines l) = concat (map fst ys) /\ entries_shown (flat_map page_lines l) = concat (map snd ys).
Proof.
  intros HB HL HP is l H. induction H as [|i p is l [q H] _ IH]; intro HF; [now exists []|]. inversion HF as [|p' l' H1 H2]; subst. destruct (IH H2) as (ys & Y1 & Y2 & Y3). exists ((page_contents p, page_entries p) :: ys). split; [|split].
  - constructor; [|exact Y1]. cbn [fst snd]. now apply (page_shown_exact b db io ps (i * ps) p q).
  - cbn [flat_map map fst concat]. now rewrite rows_app, page_rows, Y2.
  - cbn [flat_map map snd concat]. now rewrite entries_app, page_ents, Y3.
Qed.
Lemma shown_stored b db io ps : bytes_ok io -> len io < 2 ^ 64 -> 40 <= ps -> forall is l, Forall2 (stored b db ps io) is l -> (forall i, In i is -> exists y, page_shown b db io ps (i * ps) (fst y) (snd y)) -> Forall printable l.
Proof.
  intros HB HL HP is l H. induction H as [|i p is l [q H] _ IH]; intro HF; constructor; [|apply IH; intros i' HI; apply HF; now right].
  destruct (HF i) as [y HY]; [now left|]. now apply (page_shown_exact b db io ps (i * ps) p q) in HY as [HY _].
Qed.
(** One table. *)
Lemma known_type db pt x : type_number db pt x -> ((exists rk, pt = PT rk) <-> exists k, In (x, k) (page_types db)).
Proof. destruct pt as [k|c]; cbn [type_number]; [intro H; split; intros _; eauto|]. intros [_ H]. split; [intros [rk E]; discriminate|]. intros [k HK]. now apply H in HK. Qed.
Lemma segment_shown b db io ps h unknown i t s : bytes_ok io -> len io < 2 ^ 64 -> 40 <= ps -> dh_page_size h = ps -> tables_layout db io h -> getN (dh_tables h) i = Some t ->
  segment b db h io unknown i t s -> snd s = false -> no_message (fst s) ->
  exists is ys, table_shown b db io ps unknown i is /\ Forall2 (fun i y => page_shown b db io ps (i * ps) (fst y) (snd y)) is ys /\ rows_shown (fst s) = concat (map fst ys) /\ entries_shown (fst s) = concat (map snd ys).
Proof.
  intros HB HL HP HH (_ & _ & _ & HN & _ & _ & _ & _ & HT) E HS H1 H2. apply HT in E as ((x & X & TN) & _ & E1 & E2). pose proof (known_type db _ _ TN) as KT. destruct HS as [c TC HU|l r es x' HU TP SH].
  - exists [], []. split; [|repeat constructor]. exists x. split; [exact X|]. left. split; [exact HU|]. split; [|reflexivity]. rewrite TC in TN. now destruct TN.
  - cbn [fst snd] in *. destruct x' as [[]|e|]; [|exfalso; apply (H2 i e); right; apply in_or_app; right; now left|discriminate]. apply shows_ok in SH as (-> & FP & ->).
    destruct (table_pages_from b db io ps h (tb_last t) HB HL HP HH HN 1 (tb_first t) l ltac:(lia) TP) as (is & I1 & I2). destruct (stored_shown b db io ps HB HL HP is l I2 FP) as (ys & Y1 & Y2 & Y3). exists is, ys. split; [|split; [exact Y1|]].
    + exists x. split; [exact X|]. right. split; [destruct HU as [HU|HU]; [now left|right; now apply KT]|]. exists (tb_first t), (tb_last t). easy.
    + rewrite app_nil_r. easy.
Qed.
Lemma shown_segment b db io ps h unknown i t is : bytes_ok io -> len io < 2 ^ 64 -> 40 <= ps -> dh_page_size h = ps -> tables_layout db io h -> getN (dh_tables h) i = Some t ->
  table_shown b db io ps unknown i is -> (forall j, In j is -> exists y, page_shown b db io ps (j * ps) (fst y) (snd y)) -> exists s, segment b db h io unknown i t s /\ snd s = false /\ no_message (fst s).
Proof.
  intros HB HL HP HH (_ & _ & _ & HN & _ & _ & _ & _ & HT) E (x & X & HS) HY. apply HT in E as ((x' & X' & TN) & _ & E1 & E2). assert (x' = x) as -> by congruence. pose proof (known_type db _ _ TN) as KT. destruct HS as [(HU & HK & ->)|(HU & first & last & F1 & F2 & HF)].
  - destruct (tb_type t) as [k|c] eqn:TT; [now apply HK in TN|]. exists ([EvTable i (tb_type t); EvSkip], false). split; [now apply (seg_skip _ _ _ _ _ _ _ c)|]. split; [reflexivity|]. intros j e [H|[H|[]]]; discriminate.
  - assert (first = tb_first t) as -> by congruence. assert (last = tb_last t) as -> by congruence. assert (1 <= tb_first t) as H1. { inversion HF as [(? & ? & _ & R & _)|? ? ? _ (? & ? & _ & R & _)]; subst; lia. }
    destruct (pages_from_table b db io ps h (tb_last t) HB HL HP HH HN _ _ HF 1 H1) as (l & L1 & L2). pose proof (shown_stored b db io ps HB HL HP is l L2 HY) as FP.
    eexists. split; [apply (seg_dump _ _ _ _ _ _ _ l (DOk tt) (flat_map page_lines l) (DOk tt)); [destruct HU as [HU|HU]; [now left|right; now apply KT]|exact L1|now apply shows_ok]|]. cbn [fst snd]. split; [reflexivity|].
    intros j e [H|H]; [discriminate|]. rewrite app_nil_r in H. now apply pages_no_message in H.
Qed.

(** ** The file *)
Lemma tables_forward b db io ps h unknown : bytes_ok io -> len io < 2 ^ 64 -> 40 <= ps -> dh_page_size h = ps -> tables_layout db io h -> forall ts segs i0,
  len segs = len ts -> (forall i t, getN ts i = Some t -> getN (dh_tables h) (i0 + i) = Some t /\ exists s, getN segs i = Some s /\ segment b db h io unknown (i0 + i) t s) -> Forall ends_well segs -> no_message (concat (map fst segs)) ->
  exists ls ys, len ls = len ts /\ (forall i l, getN ls i = Some l -> table_shown b db io ps unknown (i0 + i) l) /\ Forall2 (fun i y => page_shown b db io ps (i * ps) (fst y) (snd y)) (concat ls) ys /\
    rows_shown (concat (map fst segs)) = concat (map fst ys) /\ entries_shown (concat (map fst segs)) = concat (map snd ys).
Proof.
  intros HB HL HP HH LY. induction ts as [|t ts IH]; intros segs i0 EL HS FE NM.
  - destruct segs as [|s segs]; [|unfold len in EL; cbn [List.length] in EL; lia]. exists [], []. split; [reflexivity|]. split; [intros i l H; apply getN_Some_lt in H; unfold len in H; cbn [List.length] in H; lia|]. repeat constructor.
  - destruct segs as [|s segs]; [unfold len in EL; cbn [List.length] in EL; lia|]. inversion FE as [|s' segs' F1 F2]; subst. cbn [map fst concat] in *.
    destruct (HS 0 t) as (T0 & s0 & G0 & SG0); [reflexivity|]. assert (s0 = s) as -> by (cbn in G0; congruence). rewrite N.add_0_r in *.
    destruct (segment_shown b db io (dh_page_size h) h unknown i0 t s HB HL HP eq_refl LY T0 SG0 F1) as (is & ys & A1 & A2 & A3 & A4); [intros j e H; apply (NM j e); apply in_or_app; now left|].
    destruct (IH segs (i0 + 1)) as (ls & zs & B1 & B2 & B3 & B4 & B5).
    + rewrite !len_cons in EL. lia.
    + intros i t' G. destruct (HS (i + 1) t') as (T1 & s1 & G1 & SG1); [rewrite getN_cons; replace (i + 1 =? 0) with false by lia; now replace (i + 1 - 1) with i by lia|].
      rewrite getN_cons in G1. replace (i + 1 =? 0) with false in G1 by lia. replace (i + 1 - 1) with i in G1 by lia. replace (i0 + (i + 1)) with (i0 + 1 + i) in * by lia. split; [exact T1|]. exists s1. easy.
    + exact F2.
    + intros j e H. apply (NM j e). apply in_or_app. now right.
    + exists (is :: ls), (ys ++ zs). split; [rewrite !len_cons; lia|]. split; [|split; [|split]].
      * intros i l G. rewrite getN_cons in G. destruct (i =? 0) eqn:E0; [apply N.eqb_eq in E0 as ->; injection G as <-; now rewrite N.add_0_r|]. apply N.eqb_neq in E0. apply B2 in G. now replace (i0 + 1 + (i - 1)) with (i0 + i) in G by lia.
      * cbn [concat]. now apply Forall2_app.
      * rewrite rows_app, map_app, concat_app. now f_equal.
      * rewrite entries_app, map_app, concat_app. now f_equal.
Qed.
Lemma shown_list b db io ps : forall (is : list N) ys, Forall2 (fun i y => page_shown b db io ps (i * ps) (fst y) (snd y)) is ys -> forall j, In j is -> exists y : list content * list N, page_shown b db io ps (j * ps) (fst y) (snd y).
Proof. intros is ys H. induction H as [|i y is ys H _ IH]; intros j []; [subst; now exists y|now apply IH]. Qed.
Lemma pages_from_stored b db io ps last : bytes_ok io -> len io < 2 ^ 64 -> 40 <= ps -> forall i l, pages_from b db io ps last i l -> forall j, In j l -> exists p, stored b db ps io j p.
Proof.
  intros HB HL HP i l H. induction H as [(lim & fin & _ & _ & H)|i j l _ (lim & fin & _ & _ & H) _ _ _ IH]; intros y [<-|HI]; try (now apply IH); try easy; apply page_exact in H as [p H]; try assumption; now exists p, fin.
Qed.
Lemma file_shown_unique b db io ps unknown xs es xs' es' : bytes_ok io -> len io < 2 ^ 64 -> 40 <= ps -> file_shown b db io ps unknown xs es -> file_shown b db io ps unknown xs' es' -> xs = xs' /\ es = es'.
Proof.
  intros HB HL HP (ls & ys & A1 & A2 & A3 & -> & ->) (ls' & ys' & B1 & B2 & B3 & -> & ->). assert (len ls = len ls') as EL by congruence.
  assert (ls' = ls) as ->.
  { apply list_ext. intro i. destruct (getN ls i) as [l|] eqn:E.
    - destruct (getN_lt_Some ls' i) as [l' E']; [apply getN_Some_lt in E; lia|]. rewrite E'. f_equal. apply A2 in E. apply B2 in E'. now apply (table_shown_unique b db io ps unknown i).
    - destruct (getN ls' i) as [l'|] eqn:E'; [|reflexivity]. apply getN_Some_lt in E'. destruct (getN_lt_Some ls i) as [l E2]; [lia|]. congruence. }
  assert (forall j, In j (concat ls) -> exists p, stored b db ps io j p) as HS.
  { intros j HI. apply in_concat in HI as (l & HI & HJ). apply in_getN in HI as [t HI]. apply A2 in HI as (x & _ & [(_ & _ & ->)|(_ & first & last & _ & _ & HF)]); [destruct HJ|]. now apply (pages_from_stored b db io ps last HB HL HP first l HF). }
  clear A1 A2 B1 B2 EL. assert (ys' = ys) as ->; [|easy]. revert ys' B3. induction A3 as [|i [y1 y2] is ys H _ IH]; intros ys' B3; inversion B3 as [|i' [z1 z2] is' zs H1 H2]; subst; [reflexivity|]. f_equal; [|apply IH; [intros j HI; apply HS; now right|exact H2]].
  destruct (HS i) as (p & q & R); [now left|]. cbn [fst snd] in *. destruct (page_shown_unique b db io ps (i * ps) p q y1 y2 z1 z2 HB HL HP R H H1) as [-> ->]. reflexivity.
Qed.
(** The command ends without a panic and without a message about a table, having printed rows that say [xs] and the index entries [es], if and only if the bytes of the file show these. *)
Theorem c123_dump : forall b io db ps unknown xs es, bytes_ok io -> len io < 2 ^ 64 -> number io 4 4 = Some ps -> 40 <= ps ->
  ((exists evs, dump_pdb b io db unknown = Some (evs, DOk tt) /\ no_message evs /\ rows_shown evs = xs /\ entries_shown evs = es) <-> opens io /\ file_shown b db io ps unknown xs es).
Proof.
  intros b io db ps unknown xs es HB HL HN HP. pose proof (c73_dump b io db unknown HB) as HD.
  assert (forall h q, rd_dbhdr db io 0 = Ok (h, q) -> opens io /\ tables_layout db io h /\ dh_page_size h = ps) as HO.
  { intros h q HR. split; [apply (open_exact io db); unfold db_open; rewrite HR; eauto|]. apply dbhdr_layout in HR. split; [exact HR|]. destruct HR as (_ & HR & _). congruence. }
  assert (forall evs, dump_pdb b io db unknown = Some (evs, DOk tt) -> no_message evs -> opens io /\ file_shown b db io ps unknown (rows_shown evs) (entries_shown evs)) as FW.
  { intros evs HE NM. destruct (rd_dbhdr db io 0) as [[h q]|e|]; try congruence. destruct HD as (segs & es' & x & D1 & D2 & D3 & D4). destruct (HO h q eq_refl) as (O1 & O2 & O3). split; [exact O1|].
    rewrite D1 in HE. destruct x; [discriminate|]. injection HE as <-. destruct D3 as [(FE & -> & _)|(l1 & s & l2 & _ & _ & _ & _ & D)]; [|discriminate].
    destruct (tables_forward b db io ps h unknown HB HL HP O3 O2 (dh_tables h) segs 0 D2) as (ls & ys & L1 & L2 & L3 & L4 & L5); [intros i t G; rewrite N.add_0_l; split; [exact G|now apply D4]|exact FE|intros j e H; apply (NM j e); now right|].
    exists ls, ys. split; [destruct O2 as (_ & _ & O2 & _ & _ & _ & _ & O4 & _); congruence|]. split; [intros t l G; now apply L2|]. split; [exact L3|]. split; [exact L4|exact L5]. }
  split.
  - intros (evs & HE & NM & <- & <-). now apply FW.
  - intros (OP & FS). apply (open_exact io db) in OP as [d OD]. unfold db_open in OD. destruct (rd_dbhdr db io 0) as [[h q]|e|]; try discriminate. clear OD d. destruct HD as (segs & es' & x & D1 & D2 & D3 & D4). destruct (HO h q eq_refl) as (O1 & O2 & O3).
    pose proof FS as (ls & ys & A1 & A2 & A3 & _ & _). assert (len ls = len (dh_tables h)) as EL by (destruct O2 as (_ & _ & O2 & _ & _ & _ & _ & O4 & _); congruence).
    assert (forall i s, getN segs i = Some s -> snd s = false /\ no_message (fst s)) as HS.
    { intros i s G. pose proof G as LG. apply getN_Some_lt in LG. destruct (getN_lt_Some (dh_tables h) i) as [t T]; [lia|]. destruct (D4 i t T) as (s' & G' & SG). assert (s' = s) as -> by congruence. destruct (getN_lt_Some ls i) as [l L]; [lia|].
      destruct (shown_segment b db io ps h unknown i t l HB HL HP O3 O2 T (A2 _ _ L)) as (s2 & S1 & S2 & S3).
      - intros j HJ. apply (shown_list b db io ps (concat ls) ys A3). apply in_concat. exists l. split; [|exact HJ]. apply in_getN. now exists i.
      - now rewrite (segment_fun b db h io unknown i t s2 s S1 SG). }
    destruct D3 as [(FE & E & ->)|(l1 & s & l2 & -> & _ & S & _)].
    + assert (no_message (EvHeader h :: es')) as NM.
      { intros j e [H|H]; [discriminate|]. rewrite E in H. apply in_concat in H as (c & H & HJ). apply in_map_iff in H as (s & <- & H). apply in_getN in H as [i H]. apply HS in H as [_ H]. now apply (H j e). }
      exists (EvHeader h :: es'). split; [exact D1|]. split; [exact NM|]. destruct (FW _ D1 NM) as [_ FS']. now apply (file_shown_unique b db io ps unknown).
    + destruct (HS (len l1) s) as [HS' _]; [rewrite getN_app; replace (len l1 <? len l1) with false by lia; rewrite N.sub_diag, getN_cons; reflexivity|congruence].
Qed.
Print Assumptions c123_dump.
(** A file shows at most one thing. *)
Theorem c123_unique : forall b io db ps unknown xs es xs' es', bytes_ok io -> len io < 2 ^ 64 -> 40 <= ps -> file_shown b db io ps unknown xs es -> file_shown b db io ps unknown xs' es' -> xs = xs' /\ es = es'.
Proof. intros b io db. apply (file_shown_unique b db io). Qed.
Print Assumptions c123_unique.

(** ** Example: three tables, of which one is unknown and has no pages, and one shows the last page of the other again; with the unknown table, there is a message; and the file of C73 with an index entry that cannot be printed *)
Definition c123_header : dbhdr := mk_dbhdr 100 3 4 0 7 [mk_table (PT KKey) 4 1 3; mk_table (PTUnknown 77) 4 9 9; mk_table (PT KGenre) 4 3 3].
Definition c123_file : list N := match flush Debug (mk_db ex_io DbPlain c123_header [None; None; None]) with DOk d => db_io d | _ => [] end.
Lemma all_bytes io : forallb (fun x => x <? 256) io = true -> bytes_ok io.
Proof. intro H. apply Forall_forall. rewrite forallb_forall in H. intros x HX. apply H in HX. now apply N.ltb_lt in HX. Qed.
Example c123_example_hyp : bytes_ok c123_file /\ len c123_file < 2 ^ 64 /\ number c123_file 4 4 = Some 100.
Proof. split; [apply all_bytes; vm_compute; reflexivity|]. split; vm_compute; reflexivity. Qed.
Definition c123_rows : list content := [Some (KKey, [1; 1], [DSShort [65; 109]]); Some (KKey, [2; 2], [DSShort [66]])].
Example c123_example : file_shown Release DbPlain c123_file 100 false (c123_rows ++ c123_rows) [16; 24] /\
  ~ (exists xs es, file_shown Release DbPlain c123_file 100 true xs es) /\ opens c123_file /\ opens ex_bad_io /\ ~ (exists xs es, file_shown Release DbPlain ex_bad_io 100 false xs es).
Proof.
  destruct c123_example_hyp as (HB & HL & HN). assert (bytes_ok ex_bad_io) as HB2 by (apply all_bytes; vm_compute; reflexivity).
  assert (opens c123_file /\ file_shown Release DbPlain c123_file 100 false (c123_rows ++ c123_rows) [16; 24]) as [O1 E1].
  { apply (c123_dump Release c123_file DbPlain 100 false (c123_rows ++ c123_rows) [16; 24] HB HL HN ltac:(discriminate)). eexists. split; [vm_compute; reflexivity|]. split; [|split; vm_compute; reflexivity].
    intros j e H. repeat (destruct H as [H|H]; [discriminate|]). destruct H. }
  assert (opens ex_bad_io) as O2 by (apply (open_exact ex_bad_io DbPlain); eexists; vm_compute; reflexivity). split; [exact E1|]. split; [|split; [exact O1|split; [exact O2|]]].
  - intros (xs & es & H). destruct (proj2 (c123_dump Release c123_file DbPlain 100 true xs es HB HL HN ltac:(discriminate)) (conj O1 H)) as (evs & E & NM & _). vm_compute in E. injection E as <-. eapply NM. cbn [In]. repeat (first [left; reflexivity|right]).
  - intros (xs & es & H). destruct (proj2 (c123_dump Release ex_bad_io DbPlain 100 false xs es HB2 ltac:(reflexivity) ltac:(reflexivity) ltac:(discriminate)) (conj O2 H)) as (evs & E & _). vm_compute in E. discriminate.
Qed.
