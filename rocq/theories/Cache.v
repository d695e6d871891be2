(** * The pages in memory do not show: a database without them gives the same answers *)
From Coq Require Import NArith List Bool Lia.
From Coq Require Import ZifyBool ZifyNat ZifyN.
From Verif Require Import Base BaseFacts Str Schema Rows Page Alloc AllocFacts Db DbFacts DbFlush Insert DbFresh.
Import ListNotations.
Open Scope N_scope.

(** ** What a program may call
    [CLoad i f]: [load_page], and the program looks at the page ([None]) or changes it by [f].  [CTable], [CPages]: an iterator is made, the one before
    is dropped.  [CNext f]: [next], and the program looks at the page or changes the page with index [i] that it gets by [f i].  [CHeader g]: the
    program reads the header and changes it by [g] through [get_header_mut] (io.rs:98-185, 256-309). *)
Inductive call :=
| CLoad (i : N) (f : option (page -> page))
| CTable (i : N)
| CPages (t : ptype)
| CNext (f : option (N -> page -> page))
| CHeader (g : dbhdr -> dbhdr).
Inductive answer :=
| APage (r : dres page)
| AIter (r : dres unit)
| ANext (r : dres (option (N * page)))
| AHeader (h : dbhdr).
Definition no_value {A} (r : dres A) : dres unit := match r with DOk _ => DOk tt | DErr e => DErr e | DPanic => DPanic end.

(** The model of the code.  Without an iterator [next] is not called; the answer [ANext (DOk None)] stands for that. *)
Definition put_header (d : database) (h : dbhdr) : database := mk_db (db_io d) (db_kind d) h (db_pages d).
Definition answer_of (b : build) (s : database * option piter) (c : call) : (database * option piter) * answer :=
  let (d, it) := s in
  match c with
  | CLoad i f =>
    match load_page b d i with
    | (d1, DOk p) => (match f with Some f => set_page d1 i (f p) | None => d1 end, it, APage (DOk p))
    | (d1, r) => (d1, it, APage r)
    end
  | CTable i => match iter_pages_for_table d i with DOk x => (d, Some x, AIter (DOk tt)) | r => (d, it, AIter (no_value r)) end
  | CPages t => match iter_pages d t with DOk x => (d, Some x, AIter (DOk tt)) | r => (d, it, AIter (no_value r)) end
  | CNext f =>
    match it with
    | None => (s, ANext (DOk None))
    | Some x =>
      match iter_next b d x with
      | (d1, x1, DOk (Some (i, p))) => (match f with Some f => set_page d1 i (f i p) | None => d1 end, Some x1, ANext (DOk (Some (i, p))))
      | (d1, x1, r) => (d1, Some x1, ANext r)
      end
    end
  | CHeader g => (put_header d (g (db_header d)), it, AHeader (db_header d))
  end.
Fixpoint answers (b : build) (s : database * option piter) (cs : list call) : (database * option piter) * list answer :=
  match cs with
  | [] => (s, [])
  | c :: cs => let (s1, a) := answer_of b s c in let (s2, l) := answers b s1 cs in (s2, a :: l)
  end.

(** ** Spec: a database without pages in memory
    A file, a header, the number of pages, and the pages that the program has set.  A page that was not set is read from the
    file, each time. *)
Record book : Type := mk_book { bk_file : list N; bk_kind : dbtype; bk_header : dbhdr; bk_count : N; bk_set : N -> option page }.
Definition seen (b : build) (w : book) (i : N) : dres page :=
  match bk_set w i with
  | Some p => DOk p
  | None =>
    match rd_page b (rd_dstr b) (dh_page_size (bk_header w)) (bk_kind w) (bk_file w) (i * dh_page_size (bk_header w)) with
    | Ok (p, _) => DOk p
    | Err e => DErr (DParse e)
    | Panic => DPanic
    end
  end.
Definition put (w : book) (i : N) (p : page) : book :=
  mk_book (bk_file w) (bk_kind w) (bk_header w) (bk_count w) (fun j => if j =? i then Some p else bk_set w j).
(** Pages are numbered from 1; page 0 is an overflow in debug builds. *)
Definition fetch (b : build) (w : book) (i : N) : dres page :=
  if i =? 0 then match b with Debug => DPanic | Release => DErr (DPageNotPresent 0) end
  else if i <=? bk_count w then seen b w i else DErr (DPageNotPresent i).
(** A walk along a table: the next page, the last page, and the lowest number that a page may have. *)
Record walk : Type := mk_walk { wk_next : option N; wk_last : N; wk_low : N }.
Definition start (t : table) : walk := mk_walk (Some (tb_first t)) (tb_last t) 1.
Definition step (b : build) (w : book) (k : walk) : walk * dres (option (N * page)) :=
  match wk_next k with
  | None => (k, DOk None)
  | Some i =>
    if i <? wk_low k then (k, DErr (DPageOrder i))
    else if bk_count w <? i then (k, DErr (DPageNotPresent i))
    else match seen b w i with
         | DOk p => (mk_walk (if i =? wk_last k then None else Some (ph_next (pg_header p))) (wk_last k) (i + 1), DOk (Some (i, p)))
         | DErr e => (mk_walk (Some i) (wk_last k) (i + 1), DErr e)
         | DPanic => (mk_walk (Some i) (wk_last k) (i + 1), DPanic)
         end
  end.
Definition spec_answer (b : build) (s : book * option walk) (c : call) : (book * option walk) * answer :=
  let (w, k) := s in
  match c with
  | CLoad i f => (match fetch b w i, f with DOk p, Some f => put w i (f p) | _, _ => w end, k, APage (fetch b w i))
  | CTable i => match getN (dh_tables (bk_header w)) i with Some t => (w, Some (start t), AIter (DOk tt)) | None => (s, AIter (DErr (DTableNotPresent i))) end
  | CPages t => match find_table t (bk_header w) with Some (_, x) => (w, Some (start x), AIter (DOk tt)) | None => (s, AIter (DErr (DTableType t))) end
  | CNext f =>
    match k with
    | None => (s, ANext (DOk None))
    | Some x => let (x1, r) := step b w x in (match r, f with DOk (Some (i, p)), Some f => put w i (f i p) | _, _ => w end, Some x1, ANext r)
    end
  | CHeader g => (mk_book (bk_file w) (bk_kind w) (g (bk_header w)) (bk_count w) (bk_set w), k, AHeader (bk_header w))
  end.
Fixpoint spec_answers (b : build) (s : book * option walk) (cs : list call) : (book * option walk) * list answer :=
  match cs with
  | [] => (s, [])
  | c :: cs => let (s1, a) := spec_answer b s c in let (s2, l) := spec_answers b s1 cs in (s2, a :: l)
  end.
(** The page size stays. *)
Definition keeps_size (c : call) : Prop := match c with CHeader g => forall h, dh_page_size (g h) = dh_page_size h | _ => True end.
(** Page [i] is not changed. *)
Definition leaves (i : N) (c : call) : Prop :=
  match c with CLoad j (Some f) => j = i -> forall p, f p = p | CNext (Some f) => forall p, f i p = p | _ => True end.
(** Nothing is changed. *)
Definition only_looks (c : call) : Prop :=
  match c with CLoad _ f => f = None | CNext f => f = None | CHeader g => forall h, g h = h | _ => True end.

(** ** Refinement *)
Definition mirrors (b : build) (d : database) (w : book) : Prop :=
  db_io d = bk_file w /\ db_kind d = bk_kind w /\ db_header d = bk_header w /\ len (db_pages d) = bk_count w /\ bk_count w < 2 ^ 32 /\ dh_page_size (bk_header w) < 2 ^ 32 /\
  forall k, k < bk_count w -> match getN (db_pages d) k with Some (Some p) => seen b w (k + 1) = DOk p | _ => bk_set w (k + 1) = None end.
Definition follows (d : database) (it : piter) (k : walk) : Prop :=
  it_next it = wk_next k /\ it_last it = wk_last k /\ it_off it = wk_low k /\
  (it_base it + 1 = it_off it /\ it_base it + it_len it = len (db_pages d) \/ it_len it = 0 /\ exists i, it_next it = Some i /\ len (db_pages d) < i).
Definition follows_opt (d : database) (it : option piter) (k : option walk) : Prop :=
  match it, k with Some it, Some k => follows d it k | None, None => True | _, _ => False end.

Lemma follows_len d d' it k : len (db_pages d') = len (db_pages d) -> follows_opt d it k -> follows_opt d' it k.
Proof. destruct it as [it|], k as [k|]; cbn; try easy. unfold follows. now intros ->. Qed.
Lemma mirrors_set b d w i p : mirrors b d w -> 1 <= i -> i <= bk_count w -> mirrors b (set_page d i p) (put w i p).
Proof.
  intros (H1 & H2 & H3 & H4 & H5 & H6 & H7) I1 I2. unfold mirrors, set_page, with_pages, put. cbn [db_io db_kind db_header db_pages bk_file bk_kind bk_header bk_count].
  repeat (split; [rewrite ?len_set_nth; easy|]). intros k Hk. rewrite getN_set_nth by lia. unfold seen. cbn [bk_set bk_header bk_kind bk_file]. destruct (N.eqb_spec k (i - 1)) as [->|NE].
  - now replace (i - 1 + 1 =? i) with true by lia.
  - replace (k + 1 =? i) with false by lia. exact (H7 k Hk).
Qed.
(** One page, through [load_page] or the iterator. *)
Lemma load_entry_mirrors b d w i : mirrors b d w -> 1 <= i -> i <= bk_count w -> exists d1, load_entry b d (i - 1) i = (d1, seen b w i) /\ mirrors b d1 w.
Proof.
  intros HM I1 I2. pose proof HM as (H1 & H2 & H3 & H4 & H5 & H6 & H7). specialize (H7 (i - 1)). rewrite N.sub_add in H7 by lia. unfold load_entry.
  destruct (getN_lt_Some (db_pages d) (i - 1)) as [e E]; [lia|]. rewrite E in *. destruct e as [p|].
  - exists d. split; [|easy]. rewrite H7 by lia. reflexivity.
  - assert (read_page b d i = seen b w i) as ->.
    { rewrite read_page_eq by (rewrite ?H3; lia). unfold seen. rewrite H7 by lia. now rewrite H1, H2, H3. }
    destruct (seen b w i) as [p|e|] eqn:ES; [|now exists d|now exists d]. eexists. split; [reflexivity|].
    unfold mirrors, with_pages. cbn [db_io db_kind db_header db_pages]. rewrite len_set_nth. repeat (split; [easy|]). intros k Hk. rewrite getN_set_nth by lia.
    destruct (N.eqb_spec k (i - 1)) as [->|NE]; [now rewrite N.sub_add by lia|]. destruct HM as (_ & _ & _ & _ & _ & _ & HM). now apply HM.
Qed.
Lemma load_page_mirrors b d w i : mirrors b d w -> exists d1, load_page b d i = (d1, fetch b w i) /\ mirrors b d1 w.
Proof.
  intro HM. pose proof HM as (H1 & H2 & H3 & H4 & H5 & H6 & H7). unfold fetch. destruct (N.eqb_spec i 0) as [->|NZ]; [exists d; split; [apply load_page_zero; lia|easy]|].
  destruct (N.leb_spec i (bk_count w)) as [HL|HL]; [|exists d; split; [apply load_page_absent; lia|easy]].
  destruct (load_entry_mirrors b d w i HM) as (d1 & E & M); try lia. exists d1. split; [|easy]. unfold load_page. rewrite wsub_ok by lia. now replace (i - 1 <? len (db_pages d)) with true by lia.
Qed.
Lemma next_mirrors b d w it k : mirrors b d w -> follows d it k ->
  exists d1 it1, iter_next b d it = (d1, it1, snd (step b w k)) /\ mirrors b d1 w /\ follows d1 it1 (fst (step b w k)) /\
    forall i p, snd (step b w k) = DOk (Some (i, p)) -> 1 <= i /\ i <= bk_count w.
Proof.
  intros HM (F1 & F2 & F3 & F4). pose proof HM as (H1 & H2 & H3 & H4 & H5 & H6 & H7). unfold iter_next, step. rewrite <- F1, <- F2, <- F3.
  destruct (it_next it) as [i|] eqn:EN; [|exists d, it; unfold follows; rewrite EN; now repeat split]. destruct (N.ltb_spec i (it_off it)) as [HO|HO].
  { exists d, it. split; [easy|]. split; [easy|]. split; [|easy]. unfold follows. now rewrite EN. }
  destruct (N.ltb_spec (bk_count w) i) as [HC|HC].
  { replace (it_len it <=? i - it_off it) with true by lia. eexists _, _. split; [reflexivity|]. split; [easy|]. split; [|easy].
    split; [easy|]. split; [easy|]. split; [easy|]. right. cbn. split; [easy|]. exists i. split; [easy|lia]. }
  assert (it_base it + 1 = it_off it /\ it_base it + it_len it = len (db_pages d)) as [L1 L2].
  { destruct F4 as [F4|(_ & j & [= <-] & HJ)]; [easy|lia]. }
  replace (it_len it <=? i - it_off it) with false by lia. replace (it_base it + (i - it_off it)) with (i - 1) by lia.
  destruct (load_entry_mirrors b d w i HM) as (d1 & E & M); try lia. rewrite E. assert (len (db_pages d1) = len (db_pages d)) as EL by (destruct M as (_ & _ & _ & M & _); lia).
  destruct (seen b w i) as [p|e|]; eexists _, _; (split; [reflexivity|]); (split; [easy|]); cbn [fst snd];
    (split; [|try easy; intros ? ? [= <- <-]; lia]); unfold follows; cbn [it_next it_last it_off it_base it_len wk_next wk_last wk_low]; repeat (split; [easy|]); left; lia.
Qed.
Lemma answer_mirrors b d it w k c : mirrors b d w -> follows_opt d it k -> keeps_size c ->
  exists d1 it1 w1 k1 a, answer_of b (d, it) c = (d1, it1, a) /\ spec_answer b (w, k) c = (w1, k1, a) /\ mirrors b d1 w1 /\ follows_opt d1 it1 k1.
Proof.
  intros HM HF HK. pose proof HM as (H1 & H2 & H3 & H4 & H5 & H6 & H7). destruct c as [i f|i|t|f|g]; cbn [answer_of spec_answer].
  - destruct (load_page_mirrors b d w i HM) as (d1 & E & M). rewrite E. assert (len (db_pages d1) = len (db_pages d)) as EL by (destruct M as (_ & _ & _ & M & _); lia).
    destruct (fetch b w i) as [p|e|] eqn:EF; [destruct f as [f|]| |]; eexists _, _, _, _, _; (split; [reflexivity|]); (split; [reflexivity|]); (split; [|apply (follows_len d); [|exact HF]]); try easy.
    + unfold fetch in EF. destruct (N.eqb_spec i 0); [now destruct b|]. destruct (N.leb_spec i (bk_count w)); [|easy]. apply mirrors_set; [easy|lia|lia].
    + unfold set_page, with_pages. cbn [db_pages]. now rewrite len_set_nth.
  - unfold iter_pages_for_table. rewrite H3. destruct (getN (dh_tables (bk_header w)) i) as [t|]; eexists _, _, _, _, _; (split; [reflexivity|]); (split; [reflexivity|]); (split; [easy|]); [|easy].
    cbn. unfold follows, iter_of, start. cbn. repeat (split; [easy|]). left. lia.
  - unfold iter_pages. rewrite H3. destruct (find_table t (bk_header w)) as [[j x]|]; eexists _, _, _, _, _; (split; [reflexivity|]); (split; [reflexivity|]); (split; [easy|]); [|easy].
    cbn. unfold follows, iter_of, start. cbn. repeat (split; [easy|]). left. lia.
  - destruct it as [x|], k as [y|]; try easy; [|eexists _, _, _, _, _; split; [reflexivity|]; split; [reflexivity|]; easy].
    destruct (next_mirrors b d w x y HM HF) as (d1 & x1 & E & M & F & R). rewrite E. destruct (step b w y) as [y1 r]. cbn [fst snd] in *.
    destruct r as [[[i p]|]|e|]; [destruct f as [f|]| | |]; eexists _, _, _, _, _; (split; [reflexivity|]); (split; [reflexivity|]); try easy. destruct (R i p eq_refl) as [R1 R2]. split; [now apply mirrors_set|].
    apply (follows_len d1); [|exact F]. unfold set_page, with_pages. cbn [db_pages]. now rewrite len_set_nth.
  - eexists _, _, _, _, _. split; [now rewrite H3|]. split; [reflexivity|]. split; [|exact HF]. cbn in HK. unfold mirrors, put_header. cbn [db_io db_kind db_header db_pages bk_file bk_kind bk_header bk_count bk_set].
    repeat (split; [easy|]). split; [now rewrite HK|]. intros j Hj. specialize (H7 j Hj). unfold seen in *. cbn [bk_header bk_set bk_kind bk_file]. rewrite HK. exact H7.
Qed.
Lemma answers_mirror b : forall cs d it w k, mirrors b d w -> follows_opt d it k -> Forall keeps_size cs ->
  exists d1 it1 w1 k1 l, answers b (d, it) cs = (d1, it1, l) /\ spec_answers b (w, k) cs = (w1, k1, l) /\ mirrors b d1 w1 /\ follows_opt d1 it1 k1.
Proof.
  induction cs as [|c cs IH]; intros d it w k HM HF HK; cbn [answers spec_answers]; [now exists d, it, w, k, []|].
  inversion HK as [|? ? K1 K2]; subst. destruct (answer_mirrors b d it w k c HM HF K1) as (d1 & it1 & w1 & k1 & a & E1 & E2 & M & F). rewrite E1, E2.
  destruct (IH d1 it1 w1 k1 M F K2) as (d2 & it2 & w2 & k2 & l & E3 & E4 & M2 & F2). rewrite E3, E4. eexists _, _, _, _, _. split; [reflexivity|]. split; [reflexivity|]. easy.
Qed.
(** ** A freshly opened database *)
Definition blank (d : database) : book := mk_book (db_io d) (db_kind d) (db_header d) (dh_next (db_header d) - 1) (fun _ => None).
Lemma open_mirrors b io k d : bytes_ok io -> db_open io k = DOk d -> mirrors b d (blank d).
Proof.
  intros HB HO. destruct (DbFresh.open_pages io k d HB HO) as (E1 & E2 & E3). assert (dbhdr_ok k (db_header d)) as (H1 & _ & H3 & _).
  { unfold db_open in HO. destruct (rd_dbhdr k io 0) as [[h q]| |] eqn:E; try easy. injection HO as <-. now apply dbhdr_rw in E. }
  unfold is_u32 in *. unfold mirrors, blank. cbn [bk_file bk_kind bk_header bk_count bk_set].
  repeat (split; [easy|]). split; [lia|]. split; [lia|]. intros j Hj. rewrite E3 by lia. easy.
Qed.
(** ** Books that look the same *)
Definition alike (b : build) (w w' : book) : Prop :=
  bk_header w' = bk_header w /\ bk_count w' = bk_count w /\ bk_file w' = bk_file w /\ bk_kind w' = bk_kind w /\ forall i, seen b w' i = seen b w i.
Lemma alike_put b w w' i p : alike b w w' -> alike b (put w i p) (put w' i p).
Proof.
  intros (H1 & H2 & H3 & H4 & H5). unfold alike, put. cbn [bk_header bk_count bk_file bk_kind]. repeat (split; [easy|]). intro j. specialize (H5 j). unfold seen in *.
  cbn [bk_set bk_header bk_file bk_kind]. now destruct (j =? i).
Qed.
Lemma alike_fetch b w w' i : alike b w w' -> fetch b w' i = fetch b w i.
Proof. intros (H1 & H2 & H3 & H4 & H5). unfold fetch. now rewrite H2, H5. Qed.
Lemma alike_step b w w' k : alike b w w' -> step b w' k = step b w k.
Proof. intros (H1 & H2 & H3 & H4 & H5). unfold step. destruct (wk_next k) as [i|]; [|easy]. now rewrite H2, H5. Qed.
Lemma alike_answer b w w' k c : alike b w w' -> keeps_size c ->
  snd (spec_answer b (w', k) c) = snd (spec_answer b (w, k) c) /\ snd (fst (spec_answer b (w', k) c)) = snd (fst (spec_answer b (w, k) c)) /\
  alike b (fst (fst (spec_answer b (w, k) c))) (fst (fst (spec_answer b (w', k) c))).
Proof.
  intros HA HK. pose proof HA as (H1 & H2 & H3 & H4 & H5). destruct c as [i f|i|t|f|g]; cbn [spec_answer].
  - rewrite (alike_fetch b w w' i HA). cbn. split; [easy|]. split; [easy|]. destruct (fetch b w i); [|easy|easy]. destruct f; [now apply alike_put|easy].
  - rewrite H1. now destruct (getN (dh_tables (bk_header w)) i).
  - rewrite H1. now destruct (find_table t (bk_header w)) as [[? ?]|].
  - destruct k as [x|]; [|easy]. rewrite (alike_step b w w' x HA). destruct (step b w x) as [x1 [[[i p]|]|e|]]; cbn; try easy. split; [easy|]. split; [easy|]. destruct f; [now apply alike_put|easy].
  - cbn. rewrite H1. split; [easy|]. split; [easy|]. unfold alike. cbn [bk_header bk_count bk_file bk_kind]. repeat (split; [easy|]). intro j. specialize (H5 j). unfold seen in *.
    cbn [bk_set bk_header bk_file bk_kind]. cbn in HK. rewrite HK. now rewrite H1 in H5.
Qed.
Lemma alike_answers b : forall cs w w' k, alike b w w' -> Forall keeps_size cs -> snd (spec_answers b (w', k) cs) = snd (spec_answers b (w, k) cs).
Proof.
  induction cs as [|c cs IH]; intros w w' k HA HK; [easy|]. inversion HK as [|? ? K1 K2]; subst. cbn [spec_answers]. destruct (alike_answer b w w' k c HA K1) as (E1 & E2 & E3).
  destruct (spec_answer b (w, k) c) as [[w1 k1] a]. destruct (spec_answer b (w', k) c) as [[w2 k2] a']. cbn [fst snd] in *. subst. specialize (IH w1 w2 k1 E3 K2).
  destruct (spec_answers b (w1, k1) cs), (spec_answers b (w2, k1) cs). cbn [snd] in *. now rewrite IH.
Qed.
Lemma alike_refl b w : alike b w w.
Proof. repeat split. Qed.
Lemma alike_trans b w1 w2 w3 : alike b w1 w2 -> alike b w2 w3 -> alike b w1 w3.
Proof.
  intros (H1 & H2 & H3 & H4 & H5) (G1 & G2 & G3 & G4 & G5). unfold alike. rewrite <- H1, <- H2, <- H3, <- H4. repeat (split; [easy|]). intro i. now rewrite G5, H5.
Qed.
Lemma fetch_seen b w i p : fetch b w i = DOk p -> seen b w i = DOk p.
Proof. unfold fetch. destruct (i =? 0); [now destruct b|]. now destruct (i <=? bk_count w). Qed.
Lemma step_seen b w k k1 i p : step b w k = (k1, DOk (Some (i, p))) -> seen b w i = DOk p.
Proof.
  unfold step. destruct (wk_next k) as [j|]; [|easy]. destruct (j <? wk_low k); [easy|]. destruct (bk_count w <? j); [easy|]. destruct (seen b w j) eqn:E; [|easy|easy]. now intros [= _ <- <-].
Qed.
Lemma looks_answers b : forall cs w k, Forall only_looks cs -> alike b w (fst (fst (spec_answers b (w, k) cs))).
Proof.
  induction cs as [|c cs IH]; intros w k HL; [apply alike_refl|]. inversion HL as [|? ? L1 L2]; subst. cbn [spec_answers].
  assert (alike b w (fst (fst (spec_answer b (w, k) c)))) as HA.
  { destruct c as [i f|i|t|f|g]; cbn [spec_answer]; cbn in L1.
    - rewrite L1. destruct (fetch b w i); apply alike_refl.
    - destruct (getN _ i); apply alike_refl.
    - destruct (find_table t _) as [[? ?]|]; apply alike_refl.
    - destruct k as [x|]; [|apply alike_refl]. destruct (step b w x) as [x1 [[[i p]|]|e|]] eqn:E; try apply alike_refl. rewrite L1. apply alike_refl.
    - cbn. unfold alike. cbn [bk_header bk_count bk_file bk_kind]. rewrite L1. repeat split. }
  destruct (spec_answer b (w, k) c) as [[w1 k1] a]. specialize (IH w1 k1 L2). destruct (spec_answers b (w1, k1) cs) as [[w2 k2] l]. cbn [fst] in *. now apply (alike_trans b w w1).
Qed.
Lemma leaves_answers b i : forall cs w k, Forall keeps_size cs -> Forall (leaves i) cs -> fetch b (fst (fst (spec_answers b (w, k) cs))) i = fetch b w i.
Proof.
  induction cs as [|c cs IH]; intros w k HK HL; [easy|]. inversion HK as [|? ? K1 K2]; subst. inversion HL as [|? ? L1 L2]; subst. cbn [spec_answers].
  assert (forall j p, (j = i -> seen b w i = DOk p) -> fetch b (put w j p) i = fetch b w i) as HP.
  { intros j p HJ. unfold fetch. cbn [put bk_count]. destruct (i =? 0); [easy|]. destruct (i <=? bk_count w); [|easy]. unfold seen at 1. cbn [put bk_set bk_header bk_file bk_kind].
    destruct (N.eqb_spec i j) as [->|NE]; [now rewrite HJ|reflexivity]. }
  assert (fetch b (fst (fst (spec_answer b (w, k) c))) i = fetch b w i) as HA.
  { destruct c as [j f|j|t|f|g]; cbn [spec_answer]; cbn in L1.
    - destruct (fetch b w j) as [p|e|] eqn:E; try easy. destruct f as [f|]; [|easy]. cbn [fst]. apply HP. intros ->. rewrite L1 by easy. now apply fetch_seen.
    - now destruct (getN _ j).
    - now destruct (find_table t _) as [[? ?]|].
    - destruct k as [x|]; [|easy]. destruct (step b w x) as [x1 [[[j p]|]|e|]] eqn:E; try easy. destruct f as [f|]; [|easy]. cbn [fst]. apply HP. intros ->. rewrite L1. now apply step_seen in E.
    - cbn in K1 |- *. unfold fetch, seen. cbn [bk_set bk_header bk_file bk_kind bk_count]. now rewrite K1. }
  destruct (spec_answer b (w, k) c) as [[w1 k1] a]. specialize (IH w1 k1 K2 L2). destruct (spec_answers b (w1, k1) cs) as [[w2 k2] l]. cbn [fst] in *. congruence.
Qed.
