(** * What a dump of a database shows: specification and proof *)
From Coq Require Import NArith List Bool Lia.
From Coq Require Import ZifyBool ZifyNat ZifyN.
From Verif Require Import Base BaseFacts Segs Utf Str StrFacts Schema SchemaFacts EnumFacts Oa Rows Page BitFacts Db DbFacts DbFlush DbFresh Writable AllocFacts Dump.
Import ListNotations.
Open Scope N_scope.

(** ** Spec *)
(** The pages of a table as they are in the file: page [i] starts at byte [i * page size]; the pages are linked in ascending order, page [last] is
    the last one.  [lo] is the lowest index that is allowed next.  The result is an error if the chain is broken. *)
Inductive table_pages (b : build) (k : dbtype) (h : dbhdr) (io : list N) (last : N) : N -> N -> list page -> dres unit -> Prop :=
| tp_order lo i : i < lo -> table_pages b k h io last lo i [] (DErr (DPageOrder i))
| tp_absent lo i : lo <= i -> dh_next h - 1 < i -> table_pages b k h io last lo i [] (DErr (DPageNotPresent i))
| tp_bad lo i e : lo <= i -> i <= dh_next h - 1 -> rd_page b (rd_dstr b) (dh_page_size h) k io (i * dh_page_size h) = Err e ->
    table_pages b k h io last lo i [] (DErr (DParse e))
| tp_panic lo i : lo <= i -> i <= dh_next h - 1 -> rd_page b (rd_dstr b) (dh_page_size h) k io (i * dh_page_size h) = Panic ->
    table_pages b k h io last lo i [] DPanic
| tp_last lo p q : lo <= last -> last <= dh_next h - 1 -> rd_page b (rd_dstr b) (dh_page_size h) k io (last * dh_page_size h) = Ok (p, q) ->
    table_pages b k h io last lo last [p] (DOk tt)
| tp_next lo i p q l r : lo <= i -> i <= dh_next h - 1 -> rd_page b (rd_dstr b) (dh_page_size h) k io (i * dh_page_size h) = Ok (p, q) -> i <> last ->
    table_pages b k h io last (i + 1) (ph_next (pg_header p)) l r -> table_pages b k h io last lo i (p :: l) r.

(** Texts stored as ASCII must be UTF-8, and index entries must be empty or valid. *)
Definition printable_str (s : dstr) : Prop := match s with DSShort v | DSAscii v => utf8_dec v <> None | _ => True end.
Definition printable (p : page) : Prop :=
  match pg_content p with
  | PData c => forall off r s, In (off, r) (dc_rows c) -> In s (row_strings r) -> printable_str s
  | PIndex c => forall e, In e (ic_entries c) -> e <= 0x1FFFFFF8
  end.
(** The lines for a page: the page, its rows in the order of their offsets; or the page, its content and the entries. *)
Definition page_lines (p : page) : list event :=
  EvPage p :: match pg_content p with PData c => map (fun x => EvRow (snd x)) (dc_rows c) | PIndex c => EvIndex c :: map EvEntry (ic_entries c) end.
(** Pages are shown up to the first one that is not printable. *)
Inductive shows : list page -> dres unit -> list event -> dres unit -> Prop :=
| sh_end r : shows [] r [] r
| sh_page p l r es x : printable p -> shows l r es x -> shows (p :: l) r (page_lines p ++ es) x
| sh_panic p l r : ~ printable p -> shows (p :: l) r [] DPanic.

(** The part of the output for one table, and whether it ends in a panic. *)
Inductive segment (b : build) (k : dbtype) (h : dbhdr) (io : list N) (unknown : bool) (i : N) (t : table) : list event * bool -> Prop :=
| seg_skip c : tb_type t = PTUnknown c -> unknown = false -> segment b k h io unknown i t ([EvTable i (tb_type t); EvSkip], false)
| seg_dump l r es x : (unknown = true \/ exists rk, tb_type t = PT rk) -> table_pages b k h io (tb_last t) 1 (tb_first t) l r -> shows l r es x ->
    segment b k h io unknown i t (EvTable i (tb_type t) :: es ++ match x with DErr e => [EvError i e] | _ => [] end, match x with DPanic => true | _ => false end).

(** ** Printing *)
Lemma str_panics s : dstr_display_panics s = false <-> printable_str s.
Proof. destruct s as [v|v|v|v]; cbn; try easy; destruct (utf8_dec v); easy. Qed.
Lemma existsb_false {A} (f : A -> bool) l : existsb f l = false <-> forall x, In x l -> f x = false.
Proof.
  induction l as [|a l IH]; cbn; [easy|]. rewrite orb_false_iff, IH. split.
  - intros [H1 H2] x [<-|H]; auto.
  - intro H. split; auto.
Qed.
Lemma row_panics r : row_debug_panics r = false <-> forall s, In s (row_strings r) -> printable_str s.
Proof.
  destruct r as [k vs c|]; cbn [row_debug_panics row_strings]; [|easy]. rewrite orb_false_iff. split.
  - intros [H1 H2] s HS. apply in_app_or in HS as [HS|HS].
    + apply in_flat_map in HS as (v & HV & HS). rewrite existsb_false in H1. specialize (H1 v HV). destruct v; cbn in HS; try easy. destruct HS as [->|[]]. now apply str_panics.
    + destruct c as [c|]; [|easy]. rewrite existsb_false in H2. apply str_panics. now apply H2.
  - intro H. split.
    + apply existsb_false. intros v HV. destruct v; try easy. apply str_panics, H, in_or_app. left. apply in_flat_map. eexists. split; [exact HV|]. now left.
    + destruct c as [c|]; [|easy]. apply existsb_false. intros s HS. apply str_panics, H, in_or_app. now right.
Qed.
Lemma entry_panics e : index_entry_debug_panics e = false <-> e <= 0x1FFFFFF8.
Proof.
  destruct (N.le_gt_cases e 0x1FFFFFF8) as [H|H].
  - split; [easy|]. intros _. destruct (index_entry_debug_panics e) eqn:E; [|easy]. apply index_entry_debug in E. lia.
  - split; [|lia]. apply index_entry_debug in H. congruence.
Qed.
Lemma page_panics p : page_debug_panics p = false <-> printable p.
Proof.
  unfold page_debug_panics, printable. destruct (pg_content p) as [c|c].
  - rewrite existsb_false. split.
    + intros H off r s HI HS. specialize (H _ HI). cbn [snd] in H. now apply (proj1 (row_panics r) H).
    + intros H [off r] HI. cbn [snd]. apply row_panics. intros s HS. now apply (H off r).
  - unfold icontent_debug_panics. rewrite existsb_false. split; intros H e HE; apply entry_panics; auto.
Qed.
Lemma say_all_plain {A} (f : A -> bool) (g : A -> event) l : existsb f l = false -> say_all (map (fun x => say (f x) (g x)) l) = (map g l, false).
Proof.
  induction l as [|a l IH]; cbn; [easy|]. intro H. apply orb_false_iff in H as [H1 H2]. rewrite H1. cbn. now rewrite IH.
Qed.
Lemma dump_page_spec p : (printable p /\ dump_page p = (page_lines p, false)) \/ (~ printable p /\ dump_page p = ([], true)).
Proof.
  destruct (page_debug_panics p) eqn:E.
  - right. split; [rewrite <- page_panics; congruence|]. unfold dump_page. now rewrite E.
  - left. split; [now apply page_panics|]. unfold dump_page, page_lines. rewrite E. unfold page_debug_panics in E. destruct (pg_content p) as [c|c].
    + rewrite (say_all_plain (fun x => row_debug_panics (snd x)) (fun x => EvRow (snd x))) by easy. reflexivity.
    + rewrite E. unfold icontent_debug_panics in E. rewrite (say_all_plain index_entry_debug_panics EvEntry) by easy. reflexivity.
Qed.

(** ** Pages *)
Lemma fresh_header b io k d : bytes_ok io -> fresh b io k d -> dbhdr_ok k (db_header d).
Proof. intros HB (_ & _ & (q & H) & _). now apply dbhdr_rw in H as (H & _). Qed.
Lemma fresh_read b io k d i : bytes_ok io -> fresh b io k d -> i <= dh_next (db_header d) - 1 ->
  read_page b d i = match rd_page b (rd_dstr b) (dh_page_size (db_header d)) k io (i * dh_page_size (db_header d)) with
                    | Ok (p, _) => DOk p | Err e => DErr (DParse e) | Panic => DPanic end.
Proof.
  intros HB HF HI. pose proof (fresh_header b io k d HB HF) as HH. pose proof HF as (F1 & F2 & _). unfold read_page.
  destruct HH as (H1 & H2 & H3 & _). destruct (page_offset_ok b i (dh_page_size (db_header d))) as [E _]; [unfold is_u32 in *; lia|easy|].
  rewrite E, F1, F2. reflexivity.
Qed.
Lemma fresh_load b io k d i d' r : bytes_ok io -> fresh b io k d -> 1 <= i -> i <= dh_next (db_header d) - 1 -> load_entry b d (i - 1) i = (d', r) ->
  r = match rd_page b (rd_dstr b) (dh_page_size (db_header d)) k io (i * dh_page_size (db_header d)) with
      | Ok (p, _) => DOk p | Err e => DErr (DParse e) | Panic => DPanic end.
Proof.
  intros HB HF H1 HI H. rewrite <- (fresh_read b io k d i HB HF HI). pose proof HF as (_ & _ & _ & F4 & F5). unfold load_entry in H.
  destruct (getN_lt_Some (db_pages d) (i - 1)) as [x E]; [lia|]. rewrite E in H. destruct x as [p|].
  - injection H as <- <-. rewrite <- (F5 _ _ E). f_equal. lia.
  - destruct (read_page b d i); now injection H as <- <-.
Qed.
Definition same_header (d d' : database) : Prop := db_header d' = db_header d /\ len (db_pages d') = len (db_pages d).
Lemma load_entry_header b d j i d' r : load_entry b d j i = (d', r) -> db_header d' = db_header d.
Proof. unfold load_entry. destruct (getN (db_pages d) j) as [[q|]|]; [|destruct (read_page b d i)|]; intros [= <- <-]; easy. Qed.
Lemma iter_next_header b d it d1 it1 r : iter_next b d it = (d1, it1, r) -> db_header d1 = db_header d.
Proof.
  intro H. apply iter_next_cases in H as [(_ & -> & _)|[(i & _ & _ & -> & _)|[(i & _ & _ & _ & -> & _)|(i & r1 & _ & _ & _ & EL & _)]]]; try easy.
  now apply load_entry_header in EL.
Qed.

Lemma dump_pages_spec b io k : bytes_ok io -> forall n d it i, fresh b io k d -> live d it -> 1 <= it_off it -> it_next it = Some i ->
  (len (db_pages d) + 1 - it_off it < N.of_nat n)%N ->
  exists d' l r es x, dump_pages b n d it = (d', Some (es, x)) /\ table_pages b k (db_header d) io (it_last it) (it_off it) i l r /\ shows l r es x /\
    fresh b io k d' /\ db_header d' = db_header d.
Proof.
  intros HB. induction n as [|n IH]; intros d it i HF HL HO HN HFuel; [lia|]. cbn [dump_pages].
  destruct (iter_next b d it) as [[d1 it1] r0] eqn:E. pose proof (fresh_next b io k d it d1 it1 r0 HF (or_introl HL) E) as [HF1 HV1].
  pose proof (iter_next_header _ _ _ _ _ _ E) as HH1. pose proof HF as (_ & _ & _ & F4 & _).
  apply iter_next_cases in E as [(E & _)|[(j & E1 & E2 & -> & -> & ->)|[(j & E1 & E2 & E3 & -> & -> & ->)|(j & r1 & E1 & E2 & E3 & EL & B1 & B2 & E4 & E5 & H)]]].
  - congruence.
  - assert (j = i) as -> by congruence. exists d, [], (DErr (DPageOrder i)), [], (DErr (DPageOrder i)). repeat (split; [constructor; easy || easy|]). easy.
  - assert (j = i) as -> by congruence. exists d, [], (DErr (DPageNotPresent i)), [], (DErr (DPageNotPresent i)). split; [easy|].
    split; [apply tp_absent; destruct HL; lia|]. split; [constructor|]. easy.
  - assert (j = i) as -> by congruence. pose proof HL as [L1 L2]. replace (it_base it + (i - it_off it)) with (i - 1) in * by lia.
    assert (i <= dh_next (db_header d) - 1) as HI by lia. pose proof (fresh_load b io k d i d1 r1 HB HF ltac:(lia) HI EL) as HR.
    destruct (rd_page b (rd_dstr b) (dh_page_size (db_header d)) k io (i * dh_page_size (db_header d))) as [[p q]|e|] eqn:ER; subst r1.
    + destruct H as [-> HNx]. assert (live d1 it1) as HL1. { destruct HV1 as [HV1|HV1]; [easy|]. apply load_entry_len in EL. split; lia. }
      assert (exists d' l r es x, table_pages b k (db_header d) io (it_last it) (it_off it) i (p :: l) r /\ shows l r es x /\
                dump_pages b n d1 it1 = (d', Some (es, x)) /\ fresh b io k d' /\ db_header d' = db_header d) as K.
      { destruct (i =? it_last it) eqn:EQ.
        - apply N.eqb_eq in EQ. destruct n as [|n]; [lia|]. cbn [dump_pages]. unfold iter_next. rewrite HNx.
          exists d1, [], (DOk tt), [], (DOk tt). split; [rewrite EQ in *; now apply (tp_last _ _ _ _ _ _ p q)|]. split; [constructor|]. easy.
        - apply N.eqb_neq in EQ. pose proof (load_entry_len _ _ _ _ _ _ EL) as HLen.
          destruct (IH d1 it1 (ph_next (pg_header p)) HF1 HL1 ltac:(lia) HNx ltac:(lia)) as (d' & l & r & es & x & K1 & K2 & K3 & K4 & K5).
          exists d', l, r, es, x. rewrite HH1, E4, E5 in K2. split; [now apply (tp_next _ _ _ _ _ _ i p q)|]. repeat (split; [easy|]). congruence. }
      destruct K as (d' & l & r & es & x & K1 & K2 & K3 & K4 & K5). destruct (dump_page_spec p) as [[HP ->]|[HP ->]].
      * rewrite K3. exists d', (p :: l), r, (page_lines p ++ es), x. repeat (split; [easy || now constructor|]). easy.
      * exists d1, (p :: l), r, [], DPanic. repeat (split; [easy || now constructor|]). easy.
    + destruct H as [-> _]. exists d1, [], (DErr (DParse e)), [], (DErr (DParse e)). split; [easy|]. split; [now apply tp_bad|]. split; [constructor|]. easy.
    + destruct H as [-> _]. exists d1, [], DPanic, [], DPanic. split; [easy|]. split; [now apply tp_panic|]. split; [constructor|]. easy.
Qed.

(** ** Tables *)
Lemma getN_cons_S {A} (a : A) l j : getN (a :: l) (j + 1) = getN l j.
Proof. rewrite getN_cons. replace (j + 1 =? 0) with false by lia. f_equal. lia. Qed.
Definition ends_well (s : list event * bool) : Prop := snd s = false.
(** All segments, or those up to the first that ends in a panic. *)
Definition joined (segs : list (list event * bool)) (es : list event) (x : bool) : Prop :=
  (Forall ends_well segs /\ es = concat (map fst segs) /\ x = false) \/
  exists l1 s l2, segs = l1 ++ s :: l2 /\ Forall ends_well l1 /\ snd s = true /\ es = concat (map fst l1) ++ fst s /\ x = true.
Lemma joined_cons s segs es x : snd s = false -> joined segs es x -> joined (s :: segs) (fst s ++ es) x.
Proof.
  intros HS [(H1 & -> & ->)|(l1 & s' & l2 & -> & H1 & H2 & -> & ->)].
  - left. split; [now constructor|]. easy.
  - right. exists (s :: l1), s', l2. split; [easy|]. split; [now constructor|]. split; [easy|]. cbn. now rewrite app_assoc.
Qed.
Lemma segment_exists b io k d unknown i t : bytes_ok io -> fresh b io k d -> exists s, segment b k (db_header d) io unknown i t s.
Proof.
  intros HB HF. destruct (tb_type t) as [rk|c] eqn:ET; [|destruct unknown eqn:EU].
  3: { eexists. now apply (seg_skip _ _ _ _ _ _ _ c). }
  all: destruct (dump_pages_spec b io k HB (S (S (length (db_pages d)))) d (iter_of d t) (tb_first t) HF (iter_of_live d t)) as (d' & l & r & es & x & _ & K2 & K3 & _);
    cbn [iter_of it_off it_next it_last] in *; [lia|easy|unfold len; lia|]; eexists; apply (seg_dump _ _ _ _ _ _ _ l r es x); eauto.
Qed.
Lemma dump_tables_spec b io k unknown h : bytes_ok io -> forall ts i d, fresh b io k d -> db_header d = h ->
  (forall j t, getN ts j = Some t -> getN (dh_tables h) (i + j) = Some t) ->
  exists segs es x, dump_tables b unknown d i ts = Some (es, x) /\ len segs = len ts /\ joined segs es x /\
    forall j t, getN ts j = Some t -> exists s, getN segs j = Some s /\ segment b k h io unknown (i + j) t s.
Proof.
  intro HB. induction ts as [|t ts IH]; intros i d HF HH HT.
  { exists [], [], false. split; [easy|]. split; [easy|]. split; [left; split; [constructor|easy]|]. intros j t H. apply getN_Some_lt in H. cbn in H. lia. }
  assert (forall d1, fresh b io k d1 -> db_header d1 = h -> exists segs es x, dump_tables b unknown d1 (i + 1) ts = Some (es, x) /\ len segs = len ts /\ joined segs es x /\
    forall j t, getN ts j = Some t -> exists s, getN segs j = Some s /\ segment b k h io unknown (i + 1 + j) t s) as IH'.
  { intros d1 HF1 HH1. apply IH; [easy|easy|]. intros j u HU. specialize (HT (j + 1) u). rewrite getN_cons_S in HT. specialize (HT HU).
    now replace (i + 1 + j) with (i + (j + 1)) by lia. }
  clear IH. assert (forall s segs, len segs = len ts -> segment b k h io unknown i t s -> (forall j u, getN ts j = Some u -> exists s, getN segs j = Some s /\ segment b k h io unknown (i + 1 + j) u s) ->
     len (s :: segs) = len (t :: ts) /\ forall j u, getN (t :: ts) j = Some u -> exists s', getN (s :: segs) j = Some s' /\ segment b k h io unknown (i + j) u s') as CONS.
  { intros s segs HL HS HR. split; [rewrite !len_cons; lia|]. intros j u HU. destruct (N.eq_dec j 0) as [->|NZ].
    - exists s. split; [easy|]. replace (i + 0) with i by lia. assert (t = u) as <- by (rewrite getN_cons in HU; cbn in HU; congruence). easy.
    - assert (exists m, j = m + 1) as [m ->] by (exists (j - 1); lia). rewrite getN_cons_S in HU. rewrite getN_cons_S. destruct (HR _ _ HU) as (s' & H1 & H2). exists s'. split; [easy|].
      now replace (i + (m + 1)) with (i + 1 + m) by lia. }
  cbn [dump_tables]. destruct (is_unknown (tb_type t) && negb unknown) eqn:EU.
  - apply andb_true_iff in EU as [EU1 EU2]. destruct (tb_type t) as [rk|c] eqn:ET; [easy|]. destruct (IH' d HF HH) as (segs & es & x & -> & H1 & H2 & H3).
    rewrite <- ET. set (s := ([EvTable i (tb_type t); EvSkip], false)). exists (s :: segs), (fst s ++ es), x. split; [easy|].
    destruct (CONS s segs H1) as [C1 C2]; [apply (seg_skip _ _ _ _ _ _ _ c ET); now destruct unknown|easy|]. split; [easy|]. split; [now apply joined_cons|]. easy.
  - assert (unknown = true \/ exists rk, tb_type t = PT rk) as HU.
    { destruct (tb_type t) as [rk|c]; [eauto|]. left. now destruct unknown. }
    unfold dump_table, iter_pages_for_table. rewrite HH. assert (getN (dh_tables h) i = Some t) as ->. { replace i with (i + 0) by lia. now apply HT. }
    destruct (dump_pages_spec b io k HB (S (S (length (db_pages d)))) d (iter_of d t) (tb_first t) HF (iter_of_live d t)) as (d' & l & r & es & x & K1 & K2 & K3 & K4 & K5);
      cbn [iter_of it_off it_next it_last] in *; [lia|easy|unfold len; lia|]. rewrite K1. rewrite HH in *.
    set (s := (EvTable i (tb_type t) :: es ++ match x with DErr e => [EvError i e] | _ => [] end, match x with DPanic => true | _ => false end)).
    assert (segment b k h io unknown i t s) as HS by now apply (seg_dump _ _ _ _ _ _ _ l r es x).
    destruct (IH' d' K4 K5) as (segs & es2 & x2 & E2 & H1 & H2 & H3). destruct (CONS s segs H1 HS H3) as [C1 C2].
    destruct x as [[]|e|].
    + rewrite E2. exists (s :: segs), (fst s ++ es2), x2. split; [cbn [fst s]; now rewrite <- app_comm_cons, app_nil_r|]. split; [easy|]. split; [now apply joined_cons|]. easy.
    + rewrite E2. exists (s :: segs), (fst s ++ es2), x2. split; [unfold s; cbn [fst app]; now rewrite <- app_assoc|]. split; [easy|]. split; [now apply joined_cons|]. easy.
    + exists (s :: segs), (fst s), true. split; [cbn [fst s]; now rewrite app_nil_r|]. split; [easy|]. split; [|easy].
      right. exists [], s, segs. easy.
Qed.

(** ** Uniqueness *)
Lemma table_pages_fun b k h io last lo i l r : table_pages b k h io last lo i l r -> forall l' r', table_pages b k h io last lo i l' r' -> l' = l /\ r' = r.
Proof.
  induction 1 as [lo i H|lo i H1 H2|lo i e H1 H2 H3|lo i H1 H2 H3|lo p q H1 H2 H3|lo i p q l r H1 H2 H3 H4 H5 IH]; intros l' r' H'; inversion H'; subst; clear H'; try easy; try lia; try congruence; try (split; congruence).
  assert (p0 = p) as -> by congruence. specialize (IH _ _ ltac:(eassumption)) as [-> ->]. easy.
Qed.
Lemma shows_fun l r es x : shows l r es x -> forall es' x', shows l r es' x' -> es' = es /\ x' = x.
Proof.
  induction 1 as [r|p l r es x HP HS IH|p l r HP]; intros es' x' H'; inversion H'; subst; try easy.
  specialize (IH _ _ ltac:(eassumption)) as [-> ->]. easy.
Qed.
Lemma segment_fun b k h io unknown i t s s' : segment b k h io unknown i t s -> segment b k h io unknown i t s' -> s' = s.
Proof.
  intros H H'. destruct H as [c H1 H2|l r es x H1 H2 H3]; inversion H' as [c' G1 G2|l' r' es' x' G1 G2 G3]; subst; try easy.
  - destruct G1 as [G1|[rk G1]]; congruence.
  - destruct H1 as [H1|[rk H1]]; congruence.
  - destruct (table_pages_fun _ _ _ _ _ _ _ _ _ H2 _ _ G2) as [-> ->]. destruct (shows_fun _ _ _ _ H3 _ _ G3) as [-> ->]. easy.
Qed.
Lemma shows_panic l r es x : shows l r es x -> (x = DPanic <-> r = DPanic \/ exists p, In p l /\ ~ printable p).
Proof.
  induction 1 as [r|p l r es x HP HS IH|p l r HP].
  - split; [now left|]. intros [H|(p & [] & _)]. easy.
  - rewrite IH. split; (intros [H|(q & Q1 & Q2)]; [now left|right; exists q]).
    + split; [now right|easy].
    + destruct Q1 as [<-|Q1]; easy.
  - split; [|easy]. intros _. right. exists p. split; [now left|easy].
Qed.
Lemma open_fresh b io k d : db_open io k = DOk d -> fresh b io k d.
Proof.
  intro H. unfold db_open in H. destruct (rd_dbhdr k io 0) as [[h q]| |] eqn:E; try easy. injection H as <-. unfold fresh. cbn [db_io db_kind db_header db_pages].
  split; [easy|]. split; [easy|]. split; [now exists q|]. split; [unfold len; rewrite repeat_length; lia|]. intros j p HG. exfalso.
  assert (In (Some p) (repeat None (N.to_nat (dh_next h - 1)))) as HIN by (apply in_getN; now exists j). now apply repeat_spec in HIN.
Qed.
