(** * Property C91: which pages are in memory does not show *)
From Coq Require Import NArith List Bool Lia.
From Verif Require Import Base BaseFacts Str Schema Rows Page Alloc Db DbFacts Insert DbFresh PropDb Cache.
Import ListNotations.
Open Scope N_scope.

(** C91.  A program opens a database and makes any calls, with any changes to the pages it gets.  The answers are those of a
    database that keeps nothing in memory but the pages the program has set. *)
Theorem c91_cache : forall b io k d cs, bytes_ok io -> db_open io k = DOk d -> Forall keeps_size cs ->
  snd (answers b (d, None) cs) = snd (spec_answers b (blank d, None) cs).
Proof.
  intros b io k d cs HB HO HK. destruct (answers_mirror b cs d None (blank d) None (open_mirrors b io k d HB HO) I HK) as (d1 & it1 & w1 & k1 & l & E1 & E2 & _).
  now rewrite E1, E2.
Qed.
Print Assumptions c91_cache.
(** Looking at pages has no effect on anything done later. *)
Theorem c91_looking : forall b io k d cs cs', bytes_ok io -> db_open io k = DOk d -> Forall only_looks cs -> Forall keeps_size cs' ->
  snd (answers b (fst (fst (answers b (d, None) cs)), None) cs') = snd (answers b (d, None) cs').
Proof.
  intros b io k d cs cs' HB HO HL HK. pose proof (open_mirrors b io k d HB HO) as HM.
  assert (Forall keeps_size cs) as HKC by (eapply Forall_impl; [|exact HL]; intros [| | | |g]; cbn; try easy; intros X h; now rewrite X).
  destruct (answers_mirror b cs d None (blank d) None HM I HKC) as (d1 & it1 & w1 & k1 & l & E1 & E2 & M1 & _). rewrite E1. cbn [fst].
  destruct (answers_mirror b cs' d1 None w1 None M1 I HK) as (d2 & it2 & w2 & k2 & l2 & E3 & E4 & _). rewrite E3.
  destruct (answers_mirror b cs' d None (blank d) None HM I HK) as (d3 & it3 & w3 & k3 & l3 & E5 & E6 & _). rewrite E5. cbn [snd].
  pose proof (looks_answers b cs (blank d) None HL) as HA. rewrite E2 in HA. cbn [fst] in HA. pose proof (alike_answers b cs' (blank d) w1 None HA HK) as HX.
  rewrite E4, E6 in HX. exact HX.
Qed.
Print Assumptions c91_looking.
(** A page that the program does not change is the page of the file, whatever else it did. *)
Theorem c91_local : forall b io k d cs i, bytes_ok io -> db_open io k = DOk d -> Forall keeps_size cs -> Forall (leaves i) cs ->
  snd (load_page b (fst (fst (answers b (d, None) cs))) i) = snd (load_page b d i).
Proof.
  intros b io k d cs i HB HO HK HL. pose proof (open_mirrors b io k d HB HO) as HM.
  destruct (answers_mirror b cs d None (blank d) None HM I HK) as (d1 & it1 & w1 & k1 & l & E1 & E2 & M1 & _). rewrite E1. cbn [fst].
  destruct (load_page_mirrors b d1 w1 i M1) as (d2 & E3 & _). destruct (load_page_mirrors b d (blank d) i HM) as (d3 & E4 & _). rewrite E3, E4. cbn [snd].
  pose proof (leaves_answers b i cs (blank d) None HK HL) as HX. rewrite E2 in HX. exact HX.
Qed.
Print Assumptions c91_local.
(** The program walks along the table of keys, clears the page it gets second, asks for page 2, which cannot be read, and for
    page 3 again.  Page 3 is then the changed page; asked for before, it is the page of the file. *)
Definition clear (p : page) : page := mk_page (pg_header p) (PIndex (mk_icontent (mk_ihdr 0 0 0 0 0 0 0) [])).
Definition at3 (i : N) (p : page) : page := if i =? 3 then clear p else p.
Definition c91_calls : list call :=
  [CPages (PT KKey); CNext None; CLoad 3 None; CNext (Some at3); CNext None; CLoad 2 None; CLoad 3 None; CTable 0; CNext None].
Example c91_example : bytes_ok ex_io /\ db_open ex_io DbPlain = DOk ex_open /\ Forall keeps_size c91_calls /\
  exists p, snd (load_page Debug ex_open 3) = DOk p /\ rows_of_page p <> [] /\
  snd (answers Debug (ex_open, None) c91_calls) =
    [AIter (DOk tt); ANext (DOk (Some (1, ex_index))); APage (DOk p); ANext (DOk (Some (3, p))); ANext (DOk None); APage (DErr (DParse EBadMagic)); APage (DOk (clear p)); AIter (DOk tt); ANext (DErr (DParse EBadMagic))].
Proof.
  split; [apply Forall_forall; intros x HX; assert (forallb (fun x => x <? 256) ex_io = true) as HA by (vm_compute; reflexivity); rewrite forallb_forall in HA; specialize (HA x HX); now apply N.ltb_lt in HA|].
  split; [exact ex_open_eq|]. split; [repeat constructor|]. eexists. split; [vm_compute; reflexivity|]. split; [easy|]. vm_compute. reflexivity.
Qed.
Example c91_leaves : Forall (leaves 1) c91_calls /\ ~ Forall only_looks c91_calls /\ Forall only_looks (firstn 3 c91_calls).
Proof.
  split; [repeat constructor; easy|]. split; [|repeat constructor]. intro H. apply Forall_forall with (x := CNext (Some at3)) in H; [|now right; right; right; left].
  discriminate H.
Qed.
(** The page size must stay: a page in memory was read with the old one. *)
Definition half (h : dbhdr) : dbhdr := mk_dbhdr 50 (dh_num h) (dh_next h) (dh_unknown h) (dh_seq h) (dh_tables h).
Example c91_size : snd (answers Debug (ex_open, None) [CLoad 3 None; CHeader half; CLoad 3 None]) <> snd (spec_answers Debug (blank ex_open, None) [CLoad 3 None; CHeader half; CLoad 3 None]).
Proof. vm_compute. discriminate. Qed.
