(** * Property C92: what is asked of files can be checked, and files that players use pass *)
From Coq Require Import NArith ZArith List Bool Lia.
From Coq Require Import ZifyBool ZifyNat ZifyN.
From Verif Require Import Base BaseFacts Segs Str StrFacts StrGood Schema SchemaFacts Oa OaFacts OaSpec Rows RowFacts RowSpec Page BitFacts PageFacts PageRw PageSpec Alloc AllocFacts AllocSpec
  Db DbFacts DbFlush DbFresh Reread Progress Insert Session PropSession Check.
Import ListNotations.
Open Scope N_scope.

(** The check is exact: a page passes if and only if it is in the file, is read with all texts as they are written, is consistent and can be
    written; and it may take rows if and only if its counters and slots are right as well. *)
Theorem c92_exact : forall b k io d i p, bytes_ok io -> len io < 2 ^ 64 - 1 -> db_open io k = DOk d ->
  let ps := dh_page_size (db_header d) in
  (checked_page b d i = Some p <->
     1 <= i /\ i < dh_next (db_header d) /\ page_consistent b k ps p /\ page_writes b ps p /\ exists z, rd_page b (rd_dstr_strict b) ps k io (i * ps) = Ok (p, z)) /\
  (checked_page b d i = Some p -> (survey_grade b d i = GGrow <-> can_grow b k ps p)).
Proof.
  intros b k io d i p HB HL HO ps. assert (db_io d = io /\ db_kind d = k) as [E1 E2] by (unfold db_open in HO; destruct (rd_dbhdr k io 0) as [[h q]| |]; try easy; now injection HO as <-).
  assert (checked_page b d i = Some p <-> good_page b d GSound i p) as HG by now apply (checked_good b k io). unfold good_page in HG. fold ps in HG. rewrite E1, E2 in HG. split; [rewrite HG; intuition discriminate|].
  intro HC. pose proof HC as (_ & _ & H1 & H2 & _ & H3)%HG. unfold survey_grade. rewrite HC. fold ps. rewrite <- (grow_check_iff b k ps io (i * ps) p HB HL H3 H1 H2). now destruct (grow_check b ps p).
Qed.
Print Assumptions c92_exact.
(** The pages of a table that the check delivers: all checked and of the type of the table, each linked to the next one, with a larger number. *)
Theorem c92_list : forall b k io d kd l, bytes_ok io -> len io < 2 ^ 64 - 1 -> db_open io k = DOk d ->
  (table_list b d kd = Some l <->
     exists i t, find_table (PT kd) (db_header d) = Some (i, t) /\ path (survey b d) (tb_last t) (tb_first t) l /\
       forall j, In j l -> exists p, checked_page b d j = Some p /\ ph_type (pg_header p) = PT kd).
Proof.
  intros b k io d kd l HB HL HO. unfold table_list. 
  assert (forall j, of_type (survey b d) kd j = true <-> exists p, checked_page b d j = Some p /\ ph_type (pg_header p) = PT kd) as HT.
  { intro j. unfold of_type, survey. destruct (checked_page b d j) as [p|]; cbn [option_map shelf_of sh_type]; [|split; [easy|now intros (p & ? & _)]]. split.
    - intro H. exists p. split; [easy|]. destruct (ph_type (pg_header p)) as [k'|]; [|easy]. now destruct (rkind_eq_dec kd k') as [<-|].
    - intros (p' & [= <-] & ->). now destruct (rkind_eq_dec kd kd). }
  assert (forall l, forallb (of_type (survey b d) kd) l = true <-> forall j, In j l -> exists p, checked_page b d j = Some p /\ ph_type (pg_header p) = PT kd) as HF.
  { intro l0. rewrite forallb_forall. split; intros H j Hj; apply HT, H, Hj. }
  assert (forall i s, survey b d i = Some s -> i < dh_next (db_header d)) as HN.
  { intros i s H. unfold survey, checked_page in H. destruct ((1 <=? i) && (i <? dh_next (db_header d))) eqn:E; [lia|easy]. }
  destruct (find_table (PT kd) (db_header d)) as [[i t]|]; [|split; [easy|now intros (i & t & ? & _)]]. split.
  - destruct (chase (survey b d) _ _ _) as [l'|] eqn:E; [|easy]. destruct (forallb _ l') eqn:EF; [|easy]. intros [= <-]. exists i, t. split; [easy|]. split; [now apply chase_path in E|now apply HF].
  - intros (i' & t' & [= <- <-] & HP & HJ). rewrite (path_chase _ _ (dh_next (db_header d)) HN _ _ HP) by lia. apply HF in HJ. now rewrite HJ.
Qed.
Print Assumptions c92_list.
(** For any file: programs open it, load checked pages, insert rows of the right type in those that can take them, and save; then again, any
    number of times.  Nothing more is asked.  Afterwards the file can be opened, and every table whose pages were all checked
    shows its rows, old ones and new ones. *)
Theorem c92_tables : forall b k io d ess io', bytes_ok io -> len io < 2 ^ 64 - 1 -> db_open io k = DOk d -> 28 + 16 * len (dh_tables (db_header d)) <= dh_page_size (db_header d) ->
  allowed b (survey_grade b d) (survey b d) (concat ess) -> sessions b k io ess io' ->
  exists d', db_open io' k = DOk d' /\ db_header d' = db_header d /\
    forall kd l, table_list b d kd = Some l ->
      exists rows, snd (iter_rows b kd d') = Some (DOk rows) /\ Forall2 same_values (flat_map (shelf_rows (work (concat ess) (survey b d))) l) rows.
Proof.
  intros b k io d ess io' HB HL HO HP HA HS. 
  destruct (c75_sessions b k io d (survey_grade b d) (survey b d) ess io' HB HL HO HP) as (d' & D1 & D2 & _ & D3); [intros i s; now apply (survey_good b k io)|exact HA|exact HS|].
  exists d'. split; [exact D1|]. split; [exact D2|]. intros kd l HT. apply (c92_list b k io d kd l HB HL HO) in HT as HC. destruct HC as (i & t & HF & HPA & _). apply (D3 kd i t l HF HPA).
  destruct (work_typed b _ _ _ HA (survey_typed b k io d HB HL HO)) as [W1 W2]. apply typed_variant; [exact W1|]. unfold table_list in HT. rewrite HF in HT.
  destruct (chase _ _ _ _) as [l'|]; [|easy]. destruct (forallb (of_type (survey b d) kd) l') eqn:E; [|easy]. injection HT as <-. rewrite <- E. clear - W2. induction l' as [|j l' IH]; [easy|]. cbn [forallb]. now rewrite W2, IH.
Qed.
Print Assumptions c92_tables.
(** With pages of at most 4096 bytes, none of these programs fails or panics. *)
Theorem c92_run : forall b k io d ess, bytes_ok io -> len io < 2 ^ 64 - 1 -> db_open io k = DOk d -> 28 + 16 * len (dh_tables (db_header d)) <= dh_page_size (db_header d) -> dh_page_size (db_header d) <= 4096 ->
  allowed b (survey_grade b d) (survey b d) (concat ess) -> exists io', sessions b k io ess io'.
Proof. intros b k io d ess HB HL HO HP H4 HA. apply (c75_run b k io d (survey_grade b d) (survey b d) ess); try easy. intros i s. now apply (survey_good b k io). Qed.
Print Assumptions c92_run.

(** ** Example: a page of a real file
    The page data/pdb/unit_tests/playlist_tree_page.bin of the repository, as the only page of the playlist tree; behind it a page that is missing. *)
Definition c92_bytes : list N :=
  [0; 0; 0; 0; 16; 0; 0; 0; 7; 0; 0; 0; 46; 0; 0; 0; 36; 0; 0; 0; 0; 0; 0; 0; 27; 96; 3; 36; 166; 12; 244; 2; 1; 0; 26; 0; 0; 0; 0; 0; 0; 0; 0; 0; 0; 0;
   0; 0; 0; 0; 0; 0; 1; 0; 0; 0; 1; 0; 0; 0; 17; 102; 111; 108; 100; 101; 114; 98; 1; 0; 0; 0; 0; 0; 0; 0; 0; 0; 0; 0; 2; 0; 0; 0; 0; 0; 0; 0; 15; 108;
   105; 115; 116; 97; 122; 0; 1; 0; 0; 0; 0; 0; 0; 0; 2; 0; 0; 0; 3; 0; 0; 0; 0; 0; 0; 0; 15; 108; 105; 115; 116; 97; 121; 0; 1; 0; 0; 0; 0; 0; 0; 0; 4;
   0; 0; 0; 4; 0; 0; 0; 0; 0; 0; 0; 15; 108; 105; 115; 116; 97; 120; 0; 1; 0; 0; 0; 0; 0; 0; 0; 6; 0; 0; 0; 5; 0; 0; 0; 0; 0; 0; 0; 15; 108; 105; 115;
   116; 97; 119; 0; 1; 0; 0; 0; 0; 0; 0; 0; 8; 0; 0; 0; 6; 0; 0; 0; 0; 0; 0; 0; 15; 108; 105; 115; 116; 97; 118; 0; 1; 0; 0; 0; 0; 0; 0; 0; 10; 0; 0; 0;
   7; 0; 0; 0; 0; 0; 0; 0; 15; 108; 105; 115; 116; 97; 117; 0; 1; 0; 0; 0; 0; 0; 0; 0; 12; 0; 0; 0; 8; 0; 0; 0; 0; 0; 0; 0; 15; 108; 105; 115; 116; 97;
   116; 0; 1; 0; 0; 0; 0; 0; 0; 0; 14; 0; 0; 0; 9; 0; 0; 0; 0; 0; 0; 0; 15; 108; 105; 115; 116; 97; 115; 0; 1; 0; 0; 0; 0; 0; 0; 0; 16; 0; 0; 0; 10; 0;
   0; 0; 0; 0; 0; 0; 15; 108; 105; 115; 116; 97; 114; 0; 1; 0; 0; 0; 0; 0; 0; 0; 18; 0; 0; 0; 11; 0; 0; 0; 0; 0; 0; 0; 15; 108; 105; 115; 116; 97; 113;
   0; 1; 0; 0; 0; 0; 0; 0; 0; 20; 0; 0; 0; 12; 0; 0; 0; 0; 0; 0; 0; 15; 108; 105; 115; 116; 97; 112; 0; 1; 0; 0; 0; 0; 0; 0; 0; 22; 0; 0; 0; 13; 0; 0;
   0; 0; 0; 0; 0; 15; 108; 105; 115; 116; 97; 111; 0; 1; 0; 0; 0; 0; 0; 0; 0; 24; 0; 0; 0; 14; 0; 0; 0; 0; 0; 0; 0; 15; 108; 105; 115; 116; 97; 110; 0;
   1; 0; 0; 0; 0; 0; 0; 0; 26; 0; 0; 0; 15; 0; 0; 0; 0; 0; 0; 0; 15; 108; 105; 115; 116; 97; 109; 0; 1; 0; 0; 0; 0; 0; 0; 0; 28; 0; 0; 0; 16; 0; 0; 0;
   0; 0; 0; 0; 15; 108; 105; 115; 116; 97; 107; 0; 1; 0; 0; 0; 0; 0; 0; 0; 30; 0; 0; 0; 17; 0; 0; 0; 0; 0; 0; 0; 15; 108; 105; 115; 116; 97; 108; 0; 1;
   0; 0; 0; 0; 0; 0; 0; 32; 0; 0; 0; 18; 0; 0; 0; 0; 0; 0; 0; 15; 108; 105; 115; 116; 97; 106; 0; 1; 0; 0; 0; 0; 0; 0; 0; 34; 0; 0; 0; 19; 0; 0; 0; 0;
   0; 0; 0; 15; 108; 105; 115; 116; 97; 103; 0; 1; 0; 0; 0; 0; 0; 0; 0; 36; 0; 0; 0; 20; 0; 0; 0; 0; 0; 0; 0; 15; 108; 105; 115; 116; 97; 105; 0; 1; 0;
   0; 0; 0; 0; 0; 0; 38; 0; 0; 0; 21; 0; 0; 0; 0; 0; 0; 0; 15; 108; 105; 115; 116; 97; 101; 0; 1; 0; 0; 0; 0; 0; 0; 0; 40; 0; 0; 0; 22; 0; 0; 0; 0; 0;
   0; 0; 15; 108; 105; 115; 116; 97; 102; 0; 1; 0; 0; 0; 0; 0; 0; 0; 42; 0; 0; 0; 23; 0; 0; 0; 0; 0; 0; 0; 15; 108; 105; 115; 116; 97; 104; 0; 1; 0; 0;
   0; 0; 0; 0; 0; 44; 0; 0; 0; 24; 0; 0; 0; 0; 0; 0; 0; 15; 108; 105; 115; 116; 97; 99; 0; 1; 0; 0; 0; 0; 0; 0; 0; 46; 0; 0; 0; 25; 0; 0; 0; 0; 0; 0; 0;
   15; 108; 105; 115; 116; 97; 100; 0; 1; 0; 0; 0; 0; 0; 0; 0; 48; 0; 0; 0; 26; 0; 0; 0; 0; 0; 0; 0; 15; 108; 105; 115; 116; 97; 97; 0; 1; 0; 0; 0; 0;
   0; 0; 0; 50; 0; 0; 0; 27; 0; 0; 0; 0; 0; 0; 0; 15; 108; 105; 115; 116; 97; 98; 0]
  ++ zeros 3238 ++
  [216; 2; 188; 2; 160; 2; 132; 2; 104; 2; 76; 2; 48; 2; 20; 2; 248; 1; 220; 1; 192; 1; 255; 7; 0; 4; 164; 1; 136; 1; 108; 1; 80; 1; 52; 1; 24; 1; 252;
   0; 224; 0; 196; 0; 168; 0; 140; 0; 112; 0; 84; 0; 56; 0; 28; 0; 0; 0; 255; 255; 0; 0].
Definition c92_header : dbhdr := mk_dbhdr 4096 1 3 5 34 [mk_table (PT KPlaylistTreeNode) 2 1 1].
Definition c92_io : list N := Eval vm_compute in match flush Debug (mk_db c92_bytes DbPlain c92_header []) with DOk d => takeN 4096 (db_io d) ++ c92_bytes | _ => [] end.
Definition c92_open : database := mk_db c92_io DbPlain c92_header [None; None].
Lemma c92_opens : db_open c92_io DbPlain = DOk c92_open.
Proof. vm_compute. reflexivity. Qed.
Lemma c92_file : bytes_ok c92_io /\ len c92_io < 2 ^ 64 - 1.
Proof.
  split; [|vm_compute; reflexivity]. assert (forallb (fun x => x <? 256) c92_io = true) as H by (vm_compute; reflexivity). apply Forall_forall. intros x Hx. rewrite forallb_forall in H. specialize (H x Hx). lia.
Qed.
(** The page passes: it has 27 rows, and more can be inserted. *)
Example c92_check : forall b, survey_grade b c92_open 1 = GGrow /\ survey_grade b c92_open 2 = GAny /\ table_list b c92_open KPlaylistTreeNode = Some [1] /\
  option_map (fun s => (sh_type s, sh_free s, sh_slots s, len (sh_rows s))) (survey b c92_open 1) = Some (PT KPlaylistTreeNode, 3238, 27, 27).
Proof. intros [|]; vm_compute; repeat split. Qed.
(** A program that inserts the playlist "mix" is one of those of the theorem, and runs. *)
Definition c92_row : row := RRow KPlaylistTreeNode [VInt 0; VInt 0; VInt 30; VInt 99; VInt 0; VStr (DSShort [109; 105; 120])] None.
Lemma c92_fine b : op_fine b (PT KPlaylistTreeNode) (24, Some c92_row).
Proof.
  destruct (c75_predicted b c92_row (PT KPlaylistTreeNode) (match row_write b c92_row ([], 0) with Ok (x, _) => x | _ => [] end) (match row_write b c92_row ([], 0) with Ok (_, p) => p | _ => 0 end)) as (n & E & _ & HF).
  - cbn [row_ok c92_row]. split; [|exact I]. repeat constructor; try (intros v [=]); try easy.
  - exact I.
  - discriminate.
  - reflexivity.
  - destruct b; vm_compute; reflexivity.
  - destruct b; vm_compute; discriminate.
  - assert (n = 24) as -> by (destruct b; vm_compute in E; congruence). exact HF.
Qed.
Lemma c92_one b k io d i n r t s0 : bytes_ok io -> len io < 2 ^ 64 - 1 -> db_open io k = DOk d -> 28 + 16 * len (dh_tables (db_header d)) <= dh_page_size (db_header d) -> dh_page_size (db_header d) <= 4096 ->
  survey_grade b d i = GGrow -> table_list b d t = Some [i] ->
  option_map (fun s => (sh_type s, sh_free s, sh_slots s, len (sh_rows s))) (survey b d i) = Some s0 -> fst (fst (fst s0)) = PT t -> (n + 3) / 4 * 4 + 6 <= snd (fst (fst s0)) -> op_fine b (PT t) (n, Some r) ->
  allowed b (survey_grade b d) (survey b d) [(i, [(n, Some r)])] /\
  exists io' d' rows, sessions b k io [[(i, [(n, Some r)])]] io' /\ db_open io' k = DOk d' /\ snd (iter_rows b t d') = Some (DOk rows) /\ len rows = snd s0 + 1 /\ same_values r (last rows RUnknown).
Proof.
  intros HB HL HO HP H4 G HT HS0 HTY HR HF. destruct (survey b d i) as [s|] eqn:ES; [|easy]. injection HS0 as <-. cbn [fst snd] in *.
  assert (allowed b (survey_grade b d) (survey b d) (concat [[(i, [(n, Some r)])]])) as HA.
  { constructor; [|constructor]. cbn [fst snd]. exists s. split; [exact ES|]. right. split; [exact G|]. rewrite HTY. constructor; [exact HF|constructor]. }
  split; [exact HA|]. destruct (c92_run b k io d [[(i, [(n, Some r)])]] HB HL HO HP H4 HA) as [io' HS].
  destruct (c92_tables b k io d [[(i, [(n, Some r)])]] io' HB HL HO HP HA HS) as (d' & D1 & _ & D2).
  destruct (D2 t [i] HT) as (rows & R1 & R2). exists io', d', rows. split; [exact HS|]. split; [exact D1|]. split; [exact R1|].
  set (l := flat_map _ _) in R2. assert (len l = len (sh_rows s) + 1 /\ last l RUnknown = r) as [L1 L2].
  { subst l. cbn [flat_map concat List.app]. unfold shelf_rows, work. cbn [fold_left]. unfold work1. cbn [fst snd]. rewrite N.eqb_refl, ES. cbn [option_map places fold_left]. unfold place. cbn [fst snd].
    replace (sh_free s <? (n + 3) / 4 * 4 + 6) with false by lia. cbn [sh_rows]. rewrite app_nil_r, last_last, len_app. now split. }
  clearbody l. split.
  - assert (length l = length rows) as HLEN by (clear - R2; induction R2; cbn; congruence). unfold len in *. now rewrite <- HLEN.
  - rewrite <- L2. clear - R2. induction R2 as [|x y l rows H1 H2 IH]; [easy|]. destruct H2; [exact H1|exact IH].
Qed.
Example c92_program : forall b, allowed b (survey_grade b c92_open) (survey b c92_open) [(1, [(24, Some c92_row)])] /\
  exists io' d' rows, sessions b DbPlain c92_io [[(1, [(24, Some c92_row)])]] io' /\ db_open io' DbPlain = DOk d' /\ snd (iter_rows b KPlaylistTreeNode d') = Some (DOk rows) /\ len rows = 28 /\ last rows RUnknown = c92_row.
Proof.
  intro b. destruct c92_file as [HB HL]. destruct (c92_check b) as (G & _ & HT & HS).
  destruct (c92_one b DbPlain c92_io c92_open 1 24 c92_row KPlaylistTreeNode (PT KPlaylistTreeNode, 3238, 27, 27) HB HL c92_opens) as (HA & io' & d' & rows & R1 & R2 & R3 & R4 & R5); [vm_compute; discriminate|vm_compute; discriminate|exact G|exact HT|exact HS|reflexivity|vm_compute; discriminate|apply c92_fine|]. clear HB HL G HT HS.
  split; [exact HA|]. exists io', d', rows. split; [exact R1|]. split; [exact R2|]. split; [exact R3|]. split; [exact R4|].
  clear - R5. destruct (last rows RUnknown) as [k vs [c|]|]; cbn in R5; try easy. now destruct R5 as (-> & -> & _).
Qed.
(** A page of zeroes, as behind the index page of tables without rows, may be loaded and saved; rows cannot be allocated in it. *)
Example c92_blank : forall b, exists p z, rd_page b (rd_dstr_strict b) 4096 DbPlain (zeros 4096) 0 = Ok (p, z) /\ page_check b 4096 p = true /\ grow_check b 4096 p = false /\
  forall n, n < 65529 -> alloc_row b n p = Ok (p, None).
Proof.
  intro b. exists (mk_page (mk_phdr 0 (PT KTrack) 0 0 0 (mk_counts 0 0) 0 0 0) (PData (mk_dcontent [VInt 0; VInt 0; VInt 0; VInt 0] [] []))), 4096. split; [destruct b; vm_compute; reflexivity|]. split; [destruct b; vm_compute; reflexivity|]. split; [destruct b; vm_compute; reflexivity|].
  intros n HN. match goal with |- alloc_row b n (mk_page ?h (PData ?c)) = _ => destruct (alloc_eq b n h c) as (gs & E & _) end; [lia|vm_compute; reflexivity|vm_compute; reflexivity|constructor|].
  rewrite E. cbn [ph_free]. replace (0 <? up4 n + 6) with true by lia. reflexivity.
Qed.
