(** * What row allocation guarantees *)
From Coq Require Import NArith ZArith List Bool Lia Sorted.
From Coq Require Import ZifyBool ZifyNat ZifyN.
From Verif Require Import Base BaseFacts Segs Str Schema SchemaFacts StrGood Oa OaFacts OaSpec Rows RowFacts RowSpec EnumFacts
  Page BitFacts PageFacts PageRw PageSpec Alloc AllocFacts.
Import ListNotations.
Ltac Zify.zify_post_hook ::= Z.div_mod_to_equations.
Open Scope N_scope.

Definition up4 (n : N) : N := 4 * ((n + 3) / 4).
Lemma up4_least n m : m mod 4 = 0 -> (up4 n <= m <-> n <= m).
Proof. unfold up4. lia. Qed.
Lemma up4_mod n : up4 n mod 4 = 0 /\ n <= up4 n.
Proof. unfold up4. lia. Qed.
Lemma next_mul4_ok b n : n <= 65532 -> next_mul4 b n = Ok (up4 n).
Proof.
  intro H. unfold next_mul4, up4. destruct (n mod 4 =? 0) eqn:E; [f_equal; lia|]. rewrite wadd_ok by (change (2 ^ 16) with 65536; lia). f_equal. lia.
Qed.
Lemma next_mul4_big b n : 65532 < n -> n < 65536 -> next_mul4 b n = match b with Debug => Panic | Release => Ok 0 end.
Proof.
  intros H1 H2. unfold next_mul4, wadd, ovf. change (2 ^ 16) with 65536. replace (n mod 4 =? 0) with false by lia.
  replace (n + (4 - n mod 4) <? 65536) with false by lia. destruct b; [easy|]. f_equal. lia.
Qed.

(** Space taken by the footer: 4 bytes for each group, 2 bytes for each row. *)
Definition footer_space (h : phdr) : N := 4 * num_row_groups (ph_counts h) + 2 * c_rows (ph_counts h).

(** One allocation on a data page with the right number of groups. *)
Lemma alloc_eq b bytes h c :
  bytes <= 65528 -> ph_used h + ph_free h < 65536 -> len (dc_groups c) = num_row_groups (ph_counts h) -> Forall rgroup_ok (dc_groups c) ->
  let nr := c_rows (ph_counts h) in let p := mk_page h (PData c) in
  exists gs,
  alloc_row b bytes p =
    (if ph_free h <? up4 bytes + 6 then Ok (p, None)
     else if 8191 <=? nr then Panic
     else Ok (mk_page (phdr_upd h (mk_counts (nr + 1) (c_valid (ph_counts h)))
                         (ph_free h - up4 bytes - 2 - (if nr mod 16 =? 0 then 4 else 0)) (ph_used h + up4 bytes))
                (PData (mk_dcontent (dc_header c) gs (dc_rows c))), Some (mk_ticket (ph_used h) (nr / 16) (nr mod 16)))) /\
  len gs = (nr + 16) / 16 /\ Forall rgroup_ok gs /\ (forall s, slot_flag gs s = slot_flag (dc_groups c) s) /\
  (forall s, s <= nr -> slot_off gs s = if s =? nr then Some (ph_used h) else slot_off (dc_groups c) s).
Proof.
  intros HB HU HL HG nr p. unfold num_row_groups in HL. fold nr in HL.
  set (gs1 := if nr mod 16 =? 0 then dc_groups c ++ [rgroup_empty] else dc_groups c).
  assert (len gs1 = (nr + 16) / 16) as L1. { unfold gs1. destruct (nr mod 16 =? 0) eqn:E; [rewrite len_app; change (len [rgroup_empty]) with 1|]; lia. }
  assert (Forall rgroup_ok gs1) as G1.
  { unfold gs1. destruct (nr mod 16 =? 0); [|easy]. apply Forall_app. split; [easy|]. constructor; [|constructor]. repeat split; repeat constructor. }
  destruct (getN_lt_Some gs1 (nr / 16)) as [grp EG]; [lia|].
  assert (rgroup_ok grp) as OKG. { rewrite Forall_forall in G1. apply G1. apply in_getN. now exists (nr / 16). }
  assert (is_u16 (ph_used h)) as U16 by (unfold is_u16; lia).
  destruct (slots_insert gs1 (nr / 16) (nr mod 16) (ph_used h) grp G1) as [SF SO]; [lia|easy|].
  exists (set_nth (N.to_nat (nr / 16)) (insert_offset grp (nr mod 16) (ph_used h)) gs1). split; [|split; [|split; [|split]]].
  - unfold alloc_row, p. cbn [pg_content pg_header]. rewrite next_mul4_ok by lia. cbn [res_bind].
    assert (up4 bytes <= 65528) by (unfold up4; lia).
    rewrite wadd_ok by (change (2 ^ 16) with 65536; lia). cbn [res_bind]. rewrite wadd_ok by (change (2 ^ 16) with 65536; lia). cbn [res_bind].
    replace (up4 bytes + 4 + 2) with (up4 bytes + 6) by lia. destruct (ph_free h <? up4 bytes + 6) eqn:EF; [easy|].
    rewrite wadd_ok by (change (2 ^ 16) with 65536; lia). cbn [res_bind]. rewrite wsub_ok by lia. cbn [res_bind].
    unfold increment_num_rows, set_rows. fold nr. destruct (8191 <=? nr) eqn:EN; [now replace (nr + 1 <? 8192) with false by lia|].
    replace (nr + 1 <? 8192) with true by lia. cbn [res_bind]. rewrite last_row_index_spec. cbn [c_rows].
    replace (nr + 1 =? 0) with false by lia. replace (nr + 1 - 1) with nr by lia.
    assert ((match getN (dc_groups c) (nr / 16) with
             | Some _ => Ok (dc_groups c, ph_free h - up4 bytes)
             | None => do! f <- wsub b 16 (ph_free h - up4 bytes) 4; Ok (dc_groups c ++ [rgroup_empty], f) end)
            = Ok (gs1, ph_free h - up4 bytes - (if nr mod 16 =? 0 then 4 else 0))) as ->.
    { unfold gs1 in *. destruct (nr mod 16 =? 0) eqn:E.
      - assert (getN (dc_groups c) (nr / 16) = None) as -> by (apply getN_None; lia). rewrite wsub_ok by lia. reflexivity.
      - rewrite EG. do 2 f_equal. lia. }
    cbn [res_bind]. rewrite EG. rewrite wsub_ok by (destruct (nr mod 16 =? 0); lia). cbn [res_bind]. do 4 f_equal. lia.
  - now rewrite len_set_nth.
  - apply Forall_set_nth; [easy|]. now apply insert_offset_ok.
  - intro s. rewrite SF. unfold gs1. destruct (nr mod 16 =? 0); [apply slots_app|easy].
  - intros s Hs. rewrite SO. replace (16 * (nr / 16) + nr mod 16) with nr by lia. destruct (s =? nr) eqn:E; [easy|].
    unfold gs1. destruct (nr mod 16 =? 0) eqn:E2; [|easy]. apply slot_off_app. lia.
Qed.

(** ** Consistent pages *)

(** A data page that is consistent and tidy: the counters are right, rows are within the used part of the heap, only
    allocated slots are marked present. *)
Definition alloc_ok (b : build) (Q : dstr -> Prop) (db : dbtype) (ps : N) (h : phdr) (c : dcontent) : Prop :=
  dpage_ok Q db ps h c /\ ps - 40 < 65536 /\
  ph_used h + ph_free h + footer_space h = ps - 40 /\
  (forall s, slot_flag (dc_groups c) s = true -> s < c_rows (ph_counts h)) /\
  tidy b 0 (dc_rows c) (ph_used h) /\ (forall o, In o (keys (dc_rows c)) -> o < ph_used h).

Lemma tidy_mono b : forall rows lo hi hi', tidy b lo rows hi -> hi <= hi' -> tidy b lo rows hi'.
Proof.
  induction rows as [|[o r] rows IH]; intros lo hi hi' H HL; [cbn in *; lia|]. destruct H as (H & n & HF & HT). split; [easy|]. exists n.
  split; [easy|]. now apply (IH _ hi).
Qed.
Lemma tidy_app b r n : forall rows lo mid, tidy b lo rows mid -> row_fits b r n -> tidy b lo (rows ++ [(mid, r)]) (mid + n).
Proof.
  induction rows as [|[o r0] rows IH]; intros lo mid H HF.
  - cbn in *. split; [easy|]. exists n. split; [easy|]. lia.
  - destruct H as (H & m & HM & HT). cbn [app tidy]. split; [easy|]. exists m. split; [easy|]. now apply IH.
Qed.
Lemma map_insert_last {A} k (v : A) : forall m, (forall o, In o (keys m) -> o < k) -> map_insert k v m = m ++ [(k, v)].
Proof.
  induction m as [|[q w] m IH]; intro H; [easy|]. cbn [map_insert app]. assert (q < k) by (apply H; now left).
  replace (k <? q) with false by lia. replace (k =? q) with false by lia. f_equal. apply IH. intros o HO. apply H. now right.
Qed.
Lemma size_bits x n : (forall i, N.testbit x i = true -> i < n) -> N.size x <= n.
Proof.
  intro H. destruct (N.eq_dec x 0) as [->|NZ]; [cbn; lia|]. rewrite N.size_log2 by easy. specialize (H (N.log2 x)). rewrite N.bit_log2 in H by easy.
  specialize (H eq_refl). lia.
Qed.
Lemma footer_bound h gs :
  Forall rgroup_ok gs -> len gs = num_row_groups (ph_counts h) -> (forall s, slot_flag gs s = true -> s < c_rows (ph_counts h)) ->
  footer_size gs <= footer_space h.
Proof.
  intros HG HL HS. unfold footer_space, num_row_groups in *. set (nr := c_rows (ph_counts h)) in *.
  destruct gs as [|g0 gs0] using rev_ind; [cbn; lia|]. clear IHgs0. rewrite footer_last, len_app in *. change (len [g0]) with 1 in HL.
  assert (N.size (rg_flags g0) <= nr - 16 * len gs0) as HZ.
  { apply size_bits. intros i HI. apply Forall_app in HG as [_ HG]. inversion HG as [|? ? (_ & _ & HF & _) _]; subst.
    pose proof (testbit16 _ _ HF HI). specialize (HS (16 * len gs0 + i)). unfold slot_flag in HS.
    replace ((16 * len gs0 + i) / 16) with (len gs0) in HS by lia. rewrite getN_app in HS. replace (len gs0 <? len gs0) with false in HS by lia.
    rewrite N.sub_diag, getN_0 in HS. replace ((16 * len gs0 + i) mod 16) with i in HS by lia. specialize (HS HI). lia. }
  unfold rg_skip, leading_zeros16. lia.
Qed.
Lemma alloc_ok_tidy b Q db ps h c : alloc_ok b Q db ps h c -> page_tidy b ps c.
Proof.
  intros ((P1 & P2 & P3 & P4 & P5 & P6 & P7 & _) & H0 & H1 & H2 & H3 & H4). pose proof (footer_bound h (dc_groups c) P7 P6 H2) as HF.
  unfold footer_space, num_row_groups in *. split; [|split].
  - lia.
  - lia.
  - apply (tidy_mono b _ _ (ph_used h)); [easy|]. lia.
Qed.

(** The fields of the page header that allocation does not touch. *)
Definition same_rest (h h' : phdr) : Prop :=
  ph_index h' = ph_index h /\ ph_type h' = ph_type h /\ ph_next h' = ph_next h /\ ph_unknown1 h' = ph_unknown1 h /\
  ph_unknown2 h' = ph_unknown2 h /\ ph_flags h' = ph_flags h.

(** Allocation keeps pages consistent, whether or not the space is used later. *)
Lemma alloc_row_ok b Q db ps h c bytes p' t :
  alloc_ok b Q db ps h c -> bytes <= 65528 -> alloc_row b bytes (mk_page h (PData c)) = Ok (p', Some t) ->
  exists h' gs', p' = mk_page h' (PData (mk_dcontent (dc_header c) gs' (dc_rows c))) /\
    alloc_ok b Q db ps h' (mk_dcontent (dc_header c) gs' (dc_rows c)) /\ same_rest h h' /\
    ph_counts h' = mk_counts (c_rows (ph_counts h) + 1) (c_valid (ph_counts h)) /\ ph_used h' = ph_used h + up4 bytes /\
    t = mk_ticket (ph_used h) (c_rows (ph_counts h) / 16) (c_rows (ph_counts h) mod 16) /\
    slot_flag gs' (c_rows (ph_counts h)) = false /\ slot_off gs' (c_rows (ph_counts h)) = Some (ph_used h).
Proof.
  intros ((P1 & P2 & P3 & P4 & P5 & P6 & P7 & P8 & P9 & P10 & P11) & H0 & H1 & H2 & H3 & H4) HB HA.
  assert (ph_used h + ph_free h < 65536) as HU by lia.
  destruct (alloc_eq b bytes h c HB HU P6 P7) as (gs & E & L & G & SF & SO). rewrite E in HA. clear E.
  set (nr := c_rows (ph_counts h)) in *. destruct (ph_free h <? up4 bytes + 6) eqn:EF; [easy|]. destruct (8191 <=? nr) eqn:EN; [easy|].
  injection HA as <- <-. eexists _, gs. split; [reflexivity|]. split; [|split; [|split; [|split; [|split; [|split]]]]].
  - split; [|split; [easy|]].
    + unfold dpage_ok. cbn [dc_header dc_groups dc_rows phdr_upd ph_counts ph_flags ph_type c_valid c_rows].
      split; [easy|]. split; [easy|]. split.
      { destruct P3 as (Q1 & Q2 & Q3 & Q4 & Q5 & Q6 & Q7 & Q8 & Q9). unfold phdr_ok, is_u16 in *. cbn [phdr_upd ph_index ph_type ph_next ph_unknown1 ph_unknown2 ph_counts ph_flags ph_free ph_used].
        repeat (split; [assumption|]). split; [destruct Q6; split; cbn [c_rows c_valid]; lia|]. split; [easy|]. split; [|lia].
        destruct (nr mod 16 =? 0); lia. }
      split; [easy|]. split; [easy|]. split; [unfold num_row_groups; cbn [c_rows]; rewrite L; f_equal; lia|]. split; [easy|]. split; [easy|]. split; [easy|].
      split; [|easy]. intro o. rewrite P10, !present_slots by easy. split; intros (s & S1 & S2); exists s.
      * rewrite SF. split; [easy|]. pose proof (H2 s S1). rewrite SO by lia. now replace (s =? nr) with false by lia.
      * rewrite SF in S1. split; [easy|]. pose proof (H2 s S1). rewrite SO in S2 by lia. now replace (s =? nr) with false in S2 by lia.
    + cbn [phdr_upd ph_used ph_free dc_rows dc_groups ph_counts c_rows]. unfold footer_space, num_row_groups in *. cbn [phdr_upd ph_counts c_rows]. fold nr in H1.
      split; [destruct (nr mod 16 =? 0) eqn:E; lia|]. split; [intros s HS; rewrite SF in HS; apply H2 in HS; lia|].
      split; [apply (tidy_mono b _ _ (ph_used h)); [easy|lia]|]. intros o HO. apply H4 in HO. lia.
  - repeat split.
  - reflexivity.
  - reflexivity.
  - reflexivity.
  - rewrite SF. destruct (slot_flag (dc_groups c) nr) eqn:E; [|easy]. apply H2 in E. lia.
  - rewrite SO by lia. now rewrite N.eqb_refl.
Qed.

(** ** Insertion *)
Lemma insert_eq t r h c grp :
  map_get (tk_offset t) (dc_rows c) = None -> getN (dc_groups c) (tk_group t) = Some grp ->
  insert_row t r (mk_page h (PData c)) =
    if 2047 <=? c_valid (ph_counts h) then Panic
    else Ok (mk_page (phdr_upd h (mk_counts (c_rows (ph_counts h)) (c_valid (ph_counts h) + 1)) (ph_free h) (ph_used h))
                     (PData (mk_dcontent (dc_header c) (set_nth (N.to_nat (tk_group t)) (mark_present grp (tk_sub t)) (dc_groups c))
                                         (map_insert (tk_offset t) r (dc_rows c))))).
Proof.
  intros H1 H2. unfold insert_row. cbn [pg_content pg_header]. rewrite H1, H2. unfold increment_num_rows_valid, set_valid.
  destruct (2047 <=? c_valid (ph_counts h)) eqn:E.
  - now replace (c_valid (ph_counts h) + 1 <? 2048) with false by lia.
  - now replace (c_valid (ph_counts h) + 1 <? 2048) with true by lia.
Qed.

(** A row that may be inserted after reserving [bytes] bytes. *)
Definition insertable (b : build) (Q : dstr -> Prop) (ty : ptype) (bytes : N) (r : row) : Prop :=
  0 < bytes /\ row_ok Q r /\ row_ptype_ok ty r /\ row_fits b r (up4 bytes).

Lemma insert_row_ok b Q db ps h c bytes p1 t r p2 :
  alloc_ok b Q db ps h c -> bytes <= 65528 -> insertable b Q (ph_type h) bytes r ->
  alloc_row b bytes (mk_page h (PData c)) = Ok (p1, Some t) -> insert_row t r p1 = Ok p2 ->
  exists h' gs', p2 = mk_page h' (PData (mk_dcontent (dc_header c) gs' (dc_rows c ++ [(ph_used h, r)]))) /\
    alloc_ok b Q db ps h' (mk_dcontent (dc_header c) gs' (dc_rows c ++ [(ph_used h, r)])) /\ same_rest h h' /\
    ph_counts h' = mk_counts (c_rows (ph_counts h) + 1) (c_valid (ph_counts h) + 1) /\ ph_used h' = ph_used h + up4 bytes.
Proof.
  intros HOK HB (I1 & I2 & I3 & I4) HA HI.
  destruct (alloc_row_ok b Q db ps h c bytes p1 t HOK HB HA) as (h1 & gs1 & -> & HOK1 & HS & HC1 & HU1 & -> & HF & HO).
  destruct HOK as (_ & _ & _ & _ & T0 & K0). destruct HOK1 as ((P1 & P2 & P3 & P4 & P5 & P6 & P7 & P8 & P9 & P10 & P11) & H0 & H1 & H2 & H3 & H4).
  cbn [dc_header dc_groups dc_rows] in *. set (nr := c_rows (ph_counts h)) in *.
  assert (map_get (ph_used h) (dc_rows c) = None) as MN. { apply map_get_none. intro X. apply K0 in X. lia. }
  assert (nr / 16 < len gs1) as HK. { rewrite P6, HC1. unfold num_row_groups. cbn [c_rows]. lia. }
  destruct (getN_lt_Some gs1 (nr / 16) HK) as [grp EG].
  rewrite (insert_eq _ _ _ _ grp) in HI by assumption. destruct (2047 <=? c_valid (ph_counts h1)) eqn:EV; [easy|]. injection HI as <-.
  rewrite map_insert_last by easy. cbn [tk_offset tk_group tk_sub dc_header dc_groups dc_rows] in *.
  assert (rgroup_ok grp) as OKG. { rewrite Forall_forall in P7. apply P7. apply in_getN. now exists (nr / 16). }
  destruct (slots_mark gs1 (nr / 16) (nr mod 16) grp) as [SF SO]; [lia|easy|].
  replace (16 * (nr / 16) + nr mod 16) with nr in SF by lia.
  assert (up4 bytes > 0) as UP by (unfold up4; lia).
  set (gs2 := set_nth (N.to_nat (nr / 16)) (mark_present grp (nr mod 16)) gs1) in *.
  assert (Forall rgroup_ok gs2) as G2. { apply Forall_set_nth; [easy|]. apply mark_present_ok; [easy|lia]. }
  rewrite HC1 in *. cbn [c_valid c_rows] in *.
  eexists _, gs2. split; [reflexivity|]. split; [|split; [|split]].
  - split; [|split; [easy|]].
    + unfold dpage_ok. cbn [dc_header dc_groups dc_rows phdr_upd ph_counts ph_flags ph_type c_valid c_rows].
      split; [easy|]. split; [easy|]. split.
      { destruct P3 as (Q1 & Q2 & Q3 & Q4 & Q5 & Q6 & Q7 & Q8 & Q9). unfold phdr_ok, is_u16 in *.
        cbn [phdr_upd ph_index ph_type ph_next ph_unknown1 ph_unknown2 ph_counts ph_flags ph_free ph_used].
        repeat (split; [assumption|]). rewrite HC1 in Q6. split; [destruct Q6; split; cbn [c_rows c_valid] in *; lia|]. split; [easy|]. split; assumption. }
      split; [easy|]. split; [easy|]. split; [unfold gs2; rewrite len_set_nth; easy|]. split; [easy|]. split.
      { rewrite <- map_insert_last by easy. now apply sorted_insert. }
      split; [rewrite len_app; change (len [(ph_used h, r)]) with 1; lia|]. split.
      * intro o. rewrite present_slots by easy. unfold keys. rewrite map_app, in_app_iff. fold (keys (dc_rows c)). rewrite P10, present_slots by easy. split.
        -- intros [(s & S1 & S2)|[<-|[]]].
           ++ exists s. rewrite SF, SO, S1. easy.
           ++ exists nr. rewrite SF, SO, N.eqb_refl, HF. easy.
        -- intros (s & S1 & S2). rewrite SF in S1. rewrite SO in S2. destruct (s =? nr) eqn:E.
           ++ right. left. assert (s = nr) as -> by lia. cbn [fst]. congruence.
           ++ left. exists s. rewrite orb_false_r in S1. easy.
      * apply Forall_app. split; [easy|]. constructor; [|constructor]. cbn [snd]. destruct HS as (_ & ET & _). rewrite ET. easy.
    + cbn [phdr_upd ph_used ph_free dc_rows dc_groups ph_counts c_rows]. unfold footer_space, num_row_groups in *. cbn [phdr_upd ph_counts c_rows] in *.
      rewrite HC1 in H1. cbn [c_rows] in H1.
      split; [easy|]. split. { intros s S1. rewrite SF in S1. destruct (s =? nr) eqn:E; [lia|]. rewrite orb_false_r in S1. now apply H2. }
      rewrite HU1. split; [now apply tidy_app|]. intros o X. unfold keys in X. rewrite map_app, in_app_iff in X. destruct X as [X|[<-|[]]]; [apply K0 in X; lia|].
      cbn [fst]. lia.
  - exact HS.
  - reflexivity.
  - exact HU1.
Qed.

(** ** Sequences of operations *)
Definition op_ok (b : build) (Q : dstr -> Prop) (ty : ptype) (op : N * option row) : Prop :=
  fst op <= 65528 /\ match snd op with Some r => insertable b Q ty (fst op) r | None => True end.

(** What a sequence of operations may do to a page. *)
Definition extends (p p' : page) (new : list (N * row)) : Prop :=
  exists h c h' c', p = mk_page h (PData c) /\ p' = mk_page h' (PData c') /\ same_rest h h' /\ dc_header c' = dc_header c /\
    dc_rows c' = dc_rows c ++ new /\ ph_used h <= ph_used h' /\ c_rows (ph_counts h) <= c_rows (ph_counts h') /\
    c_valid (ph_counts h') = c_valid (ph_counts h) + len new.

Lemma step_ok b Q db ps h c n r p' :
  alloc_ok b Q db ps h c -> op_ok b Q (ph_type h) (n, r) -> step b n r (mk_page h (PData c)) = Ok p' ->
  exists h' c' new, p' = mk_page h' (PData c') /\ alloc_ok b Q db ps h' c' /\ extends (mk_page h (PData c)) p' new /\ 
    map snd new = match r with Some r => if ph_free h <? up4 n + 6 then [] else [r] | None => [] end.
Proof.
  intros HOK [HB HR] HS. cbn [fst snd] in *. unfold step in HS. destruct (alloc_row b n (mk_page h (PData c))) as [[p1 t]| |] eqn:EA; try easy.
  cbn [res_bind] in HS. pose proof HOK as ((P1 & P2 & P3 & P4 & P5 & P6 & P7 & _) & H0 & H1 & _).
  destruct (alloc_eq b n h c HB) as (gs & E & _); [lia|easy|easy|]. rewrite EA in E.
  destruct t as [t|].
  - assert (ph_free h <? up4 n + 6 = false) as EF. { destruct (ph_free h <? up4 n + 6); [easy|easy]. }
    destruct r as [r|].
    + destruct (insert_row_ok b Q db ps h c n p1 t r p' HOK HB HR EA HS) as (h' & gs' & -> & HOK' & HSR & HC & HU).
      exists h', (mk_dcontent (dc_header c) gs' (dc_rows c ++ [(ph_used h, r)])), [(ph_used h, r)]. split; [easy|]. split; [easy|]. split; [|now rewrite EF].
      eexists _, _, _, _. split; [reflexivity|]. split; [reflexivity|]. cbn [dc_rows dc_header]. rewrite HC, HU. cbn [c_rows c_valid].
      split; [easy|]. split; [easy|]. split; [easy|]. split; [lia|]. split; [lia|]. reflexivity.
    + destruct (alloc_row_ok b Q db ps h c n p1 t HOK HB EA) as (h1 & gs1 & -> & HOK1 & HSR & HC1 & HU1 & _). injection HS as <-.
      exists h1, (mk_dcontent (dc_header c) gs1 (dc_rows c)), []. split; [easy|]. split; [easy|]. split; [|easy].
      eexists _, _, _, _. split; [reflexivity|]. split; [reflexivity|]. cbn [dc_rows dc_header]. rewrite HC1, HU1. cbn [c_rows c_valid].
      split; [easy|]. split; [easy|]. split; [now rewrite app_nil_r|]. split; [lia|]. split; [lia|]. cbn. lia.
  - assert (p' = p1) as -> by (destruct r; congruence).
    destruct (ph_free h <? up4 n + 6) eqn:EF; [|destruct (8191 <=? c_rows (ph_counts h)); easy]. injection E as ->.
    exists h, c, []. split; [easy|]. split; [easy|]. split; [|now destruct r].
    eexists _, _, _, _. split; [reflexivity|]. split; [reflexivity|]. split; [repeat split|]. split; [easy|]. split; [now rewrite app_nil_r|]. split; [lia|]. split; [lia|]. cbn. lia.
Qed.
Lemma extends_trans p q r l1 l2 : extends p q l1 -> extends q r l2 -> extends p r (l1 ++ l2).
Proof.
  intros (h & c & h' & c' & -> & E & S1 & D1 & R1 & U1 & N1 & V1) (h2 & c2 & h3 & c3 & E2 & E3 & S2 & D2 & R2 & U2 & N2 & V2).
  rewrite E in E2. injection E2 as <- <-. exists h, c, h3, c3. split; [easy|]. split; [easy|]. split.
  { destruct S1 as (?&?&?&?&?&?), S2 as (?&?&?&?&?&?). repeat split; congruence. }
  split; [congruence|]. split; [rewrite R2, R1; now rewrite app_assoc|]. split; [lia|]. split; [lia|]. rewrite len_app. lia.
Qed.
Lemma extends_refl h c : extends (mk_page h (PData c)) (mk_page h (PData c)) [].
Proof.
  eexists _, _, _, _. split; [reflexivity|]. split; [reflexivity|]. split; [repeat split|]. split; [easy|]. split; [now rewrite app_nil_r|]. split; [lia|]. split; [lia|]. cbn. lia.
Qed.
Lemma run_ok b Q db ps : forall ops h c p', alloc_ok b Q db ps h c -> Forall (op_ok b Q (ph_type h)) ops -> run b ops (mk_page h (PData c)) = Ok p' ->
  exists h' c' new, p' = mk_page h' (PData c') /\ alloc_ok b Q db ps h' c' /\ extends (mk_page h (PData c)) p' new /\
    (forall k r, In (k, r) new -> exists n, In (n, Some r) ops).
Proof.
  induction ops as [|[n r] ops IH]; intros h c p' HOK HF HR.
  - injection HR as <-. exists h, c, []. split; [easy|]. split; [easy|]. split; [apply extends_refl|]. intros k r [].
  - inversion HF as [|? ? HO HF']; subst. cbn [run] in HR. destruct (step b n r (mk_page h (PData c))) as [p1| |] eqn:ES; try easy. cbn [res_bind] in HR.
    destruct (step_ok b Q db ps h c n r p1 HOK HO ES) as (h1 & c1 & new1 & -> & HOK1 & HE1 & HN1).
    assert (ph_type h1 = ph_type h) as ET. { destruct HE1 as (? & ? & ? & ? & E1 & E2 & (_ & X & _) & _). congruence. }
    destruct (IH h1 c1 p' HOK1) as (h2 & c2 & new2 & -> & HOK2 & HE2 & HN2); [now rewrite ET|easy|].
    exists h2, c2, (new1 ++ new2). split; [easy|]. split; [easy|]. split; [now apply (extends_trans _ (mk_page h1 (PData c1)))|].
    intros k x HI. apply in_app_iff in HI as [HI|HI].
    + assert (In x (map snd new1)) as HX by (apply in_map_iff; now exists (k, x)). rewrite HN1 in HX. destruct r as [r|]; [|easy].
      destruct (ph_free h <? up4 n + 6); [easy|]. destruct HX as [->|[]]. exists n. now left.
    + destruct (HN2 k x HI) as [m HM]. exists m. now right.
Qed.

(** ** Rows of predicted size may be inserted *)
Lemma row_ok_impl (Q R : dstr -> Prop) r : (forall d, Q d -> R d) -> row_ok Q r -> row_ok R r.
Proof.
  intros H. destruct r as [k vs oc|]; [|easy]. intros [HF HO]. split; [now apply (fields_ok_impl Q)|].
  destruct (row_oarr k) as [[off n]|], oc as [c|]; try easy. destruct HO as (H1 & H2 & H3). split; [easy|]. split; [|easy].
  rewrite Forall_forall in *. auto.
Qed.
Lemma row_fits_mono b r n m : row_fits b r n -> n <= m -> row_fits b r m.
Proof.
  intros H HL pos l r' p HE. destruct (H pos l r' p HE) as [H1 H2]. split; [easy|]. unfold segs_within in *. rewrite Forall_forall in *.
  intros s HS. specialize (H2 s HS). lia.
Qed.
Lemma heap_insertable b r ty bs p :
  row_ok dstr_good r -> row_calc r -> r <> RUnknown -> row_ptype_ok ty r -> row_write b r ([], 0) = Ok (bs, p) -> len bs < 65536 ->
  exists n, row_heap b r = Ok n /\ insertable b dstr_good ty n r.
Proof.
  intros HR HC HU HT HW HL. assert (row_ok dstr_inv r) as HI. { apply (row_ok_impl dstr_good); [|easy]. now intros d [X _]. }
  destruct (row_heap_extent b r [] bs p HI HC HU HW HL) as (n & E & EL & _). change (len (@nil N)) with 0 in EL. exists n. split; [easy|]. split; [|split; [easy|split; [easy|]]].
  - destruct (row_write_enc b r [] 0 bs p HI HC HW) as (bs0 & E0 & ->). rewrite write_at_nil0 in EL. assert (bs0 <> []) as NE; [|destruct bs0; [easy|rewrite len_cons in EL; lia]].
    destruct r as [k vs oc|]; [|easy]. cbn [row_enc] in E0. destruct HI as [HF _]. destruct (enc_fields b (row_fields k) vs) as [x| |] eqn:EX; [|easy|easy]. cbn [res_bind] in E0.
    assert (fields_size (row_fields k) <= len x) as HX by (now apply (fields_enc_len_ge b dstr_inv _ vs)). assert (0 < fields_size (row_fields k)) by (destruct k; now vm_compute).
    destruct x as [|x0 x]; [cbn in HX; lia|]. destruct (row_oarr k) as [[? ?]|], oc as [c|]; try congruence.
    match type of E0 with context [oarr_enc ?a1 ?a2 ?a3 ?a4] => destruct (oarr_enc a1 a2 a3 a4) as [[? ?]| |]; [|easy|easy] end. cbn [res_bind] in E0. injection E0 as <-. easy.
  - apply (row_fits_mono b r n); [|apply up4_mod]. apply (row_size_fits b dstr_inv); try easy. exists bs, p. split; [easy|lia].
Qed.

(** ** When operations panic *)
Lemma incl_len (l : list N) n : NoDup l -> (forall x, In x l -> x < n) -> len l <= n.
Proof.
  intros HN HI. pose proof (NoDup_incl_length HN (l' := map N.of_nat (seq 0 (N.to_nat n)))) as H. rewrite map_length, seq_length in H. unfold len.
  enough (length l <= N.to_nat n)%nat by lia. apply H. intros x HX. apply in_map_iff. exists (N.to_nat x). specialize (HI x HX). split; [lia|]. apply in_seq. lia.
Qed.
Lemma sorted_NoDup {A} (m : list (N * A)) : sorted m -> NoDup (keys m).
Proof.
  unfold sorted, keys. induction m as [|[k v] m IH]; intro H; cbn [map]; constructor.
  - inversion H as [|? ? _ HF]; subst. rewrite Forall_forall in HF. intro X. apply HF in X. cbn [fst] in X. lia.
  - apply IH. inversion H; subst. easy.
Qed.
Lemma Forall2_len {A B} (P : A -> B -> Prop) l1 l2 : Forall2 P l1 l2 -> length l1 = length l2.
Proof. induction 1; cbn; congruence. Qed.
Lemma choose_slots (P : N -> N -> Prop) : forall l, (forall o, In o l -> exists s, P o s) -> exists ss, Forall2 P l ss.
Proof.
  induction l as [|o l IH]; intro H; [exists []; constructor|]. destruct (H o) as [s HS]; [now left|]. destruct IH as [ss HSS]; [intros x HX; apply H; now right|].
  exists (s :: ss). now constructor.
Qed.
Lemma valid_le_rows b Q db ps h c : alloc_ok b Q db ps h c -> c_valid (ph_counts h) <= c_rows (ph_counts h).
Proof.
  intros ((P1 & P2 & P3 & P4 & P5 & P6 & P7 & P8 & P9 & P10 & P11) & H0 & H1 & H2 & _).
  destruct (choose_slots (fun o s => slot_flag (dc_groups c) s = true /\ slot_off (dc_groups c) s = Some o) (keys (dc_rows c))) as [ss HSS].
  { intros o HO. apply P10 in HO. now apply present_slots in HO. }
  assert (len ss = c_valid (ph_counts h)) as <-. { rewrite <- P9. apply Forall2_len in HSS. unfold keys in HSS. rewrite map_length in HSS. unfold len. lia. }
  apply incl_len.
  - pose proof (sorted_NoDup _ P8) as HN. clear P9 P10. revert HN. induction HSS as [|o s l ss HP HSS IH]; intro HN; constructor.
    + intro X. inversion HN as [|? ? NI _]; subst. apply NI.
      clear - HP HSS X. induction HSS as [|o' s' l ss HP' HSS IH]; [easy|]. destruct X as [->|X]; [left|right; now apply IH]. destruct HP as [_ A], HP' as [_ B]. congruence.
    + apply IH. now inversion HN.
  - intros s HS. apply H2. clear - HSS HS. induction HSS as [|o' s' l ss [HP' _] HSS IH]; [easy|]. destruct HS as [->|HS]; auto.
Qed.

Lemma alloc_panics b Q db ps h c n :
  alloc_ok b Q db ps h c -> n <= 65528 ->
  (alloc_row b n (mk_page h (PData c)) = Panic <-> up4 n + 6 <= ph_free h /\ c_rows (ph_counts h) = 8191) /\
  forall e, alloc_row b n (mk_page h (PData c)) <> Err e.
Proof.
  intros HOK HN. pose proof HOK as ((P1 & P2 & (_ & _ & _ & _ & _ & [PR _] & _) & P4 & P5 & P6 & P7 & _) & H0 & H1 & _).
  destruct (alloc_eq b n h c HN) as (gs & E & _); [lia|easy|easy|]. rewrite E.
  destruct (ph_free h <? up4 n + 6) eqn:EF; [split; [split; [easy|lia]|easy]|]. destruct (8191 <=? c_rows (ph_counts h)) eqn:EN; split; try easy; split; try easy; lia.
Qed.
Lemma insert_panics b Q db ps h c n r p1 t :
  alloc_ok b Q db ps h c -> n <= 65528 -> alloc_row b n (mk_page h (PData c)) = Ok (p1, Some t) ->
  (insert_row t r p1 = Panic <-> c_valid (ph_counts h) = 2047) /\ forall e, insert_row t r p1 <> Err e.
Proof.
  intros HOK HB HA. destruct (alloc_row_ok b Q db ps h c n p1 t HOK HB HA) as (h1 & gs1 & -> & HOK1 & HS & HC1 & HU1 & -> & HF & HO).
  pose proof HOK as ((_ & _ & (_ & _ & _ & _ & _ & [_ PV] & _) & _) & _ & _ & _ & _ & K0).
  destruct HOK1 as ((_ & _ & _ & _ & _ & P6 & _) & _). cbn [dc_groups] in P6.
  destruct (getN_lt_Some gs1 (c_rows (ph_counts h) / 16)) as [grp EG]. { rewrite P6, HC1. unfold num_row_groups. cbn [c_rows]. lia. }
  rewrite (insert_eq _ _ _ _ grp); [|cbn [tk_offset dc_rows]; apply map_get_none; intro X; apply K0 in X; lia|easy].
  rewrite HC1. cbn [c_valid]. destruct (2047 <=? c_valid (ph_counts h)) eqn:E; split; try easy; split; try easy; lia.
Qed.
(** Pages of at most 4096 bytes never get there. *)
Lemma run_no_panic b Q db ps : forall ops h c, alloc_ok b Q db ps h c -> ps <= 4096 -> Forall (op_ok b Q (ph_type h)) ops ->
  exists p', run b ops (mk_page h (PData c)) = Ok p'.
Proof.
  induction ops as [|[n r] ops IH]; intros h c HOK HP HF; [now eexists|]. inversion HF as [|? ? HO HF']; subst.
  assert (c_rows (ph_counts h) < 2047) as HR. { destruct HOK as (_ & _ & X & _). unfold footer_space, num_row_groups in X. lia. }
  pose proof (valid_le_rows _ _ _ _ _ _ HOK) as HV. pose proof (proj1 HO) as HB. cbn [fst] in HB.
  assert (exists p1, step b n r (mk_page h (PData c)) = Ok p1) as [p1 ES].
  { unfold step. destruct (alloc_panics b Q db ps h c n HOK HB) as [A1 A2].
    destruct (alloc_row b n (mk_page h (PData c))) as [[q t]|e|] eqn:EA; [|now destruct (A2 e)|destruct (proj1 A1 eq_refl); lia].
    cbn [res_bind]. destruct t as [t|]; [|eexists; destruct r; reflexivity]. destruct r as [r|]; [|now eexists].
    destruct (insert_panics b Q db ps h c n r q t HOK HB EA) as [I1 I2]. destruct (insert_row t r q) as [q2|e|] eqn:EI; [now eexists|now destruct (I2 e)|]. apply proj1 in I1. specialize (I1 eq_refl). lia. }
  cbn [run]. rewrite ES. cbn [res_bind]. destruct (step_ok b Q db ps h c n r p1 HOK HO ES) as (h1 & c1 & new1 & -> & HOK1 & HE1 & _).
  apply IH; try easy. destruct HE1 as (? & ? & ? & ? & E1 & E2 & (_ & X & _) & _). assert (ph_type h1 = ph_type h) as -> by congruence. easy.
Qed.
(** Sizes above 65528. *)
Lemma alloc_big_debug h c n : 65528 < n -> n < 65536 -> alloc_row Debug n (mk_page h (PData c)) = Panic.
Proof.
  intros H1 H2. unfold alloc_row. cbn [pg_content pg_header]. destruct (N.le_gt_cases n 65532) as [H|H].
  - rewrite next_mul4_ok by easy. replace (up4 n) with 65532 by (unfold up4; lia). reflexivity.
  - now rewrite next_mul4_big by easy.
Qed.
Lemma alloc_big_release Q db ps h c n :
  alloc_ok Release Q db ps h c -> 65528 < n -> n < 65536 -> 6 <= ph_free h -> c_rows (ph_counts h) < 8191 ->
  exists p' t, alloc_row Release n (mk_page h (PData c)) = Ok (p', Some t).
Proof.
  intros ((P1 & P2 & P3 & P4 & P5 & P6 & P7 & _) & H0 & H1 & _) HN1 HN2 HF HR. unfold alloc_row. cbn [pg_content pg_header].
  assert (exists n4 rq, next_mul4 Release n = Ok n4 /\ (do! r1 <- wadd Release 16 n4 4; wadd Release 16 r1 2) = Ok rq /\ rq <= 6) as (n4 & rq & E1 & E2 & LE).
  { destruct (N.le_gt_cases n 65532) as [H|H].
    - rewrite next_mul4_ok by easy. replace (up4 n) with 65532 by (unfold up4; lia). eexists _, _. split; [reflexivity|]. split; [reflexivity|]. easy.
    - rewrite next_mul4_big by easy. eexists _, _. split; [reflexivity|]. split; [reflexivity|]. easy. }
  rewrite E1. cbn [res_bind]. destruct (wadd Release 16 n4 4) as [r1| |] eqn:E3; [|easy|easy]. cbn [res_bind] in E2 |- *. rewrite E2. cbn [res_bind].
  replace (ph_free h <? rq) with false by lia. 
  assert (forall x y, exists z, wadd Release 16 x y = Ok z) as WA by (intros; unfold wadd, ovf; destruct (x + y <? 2 ^ 16); now eexists).
  assert (forall x y, exists z, wsub Release 16 x y = Ok z) as WS by (intros; unfold wsub, ovf; destruct (y <=? x); now eexists).
  destruct (WA (ph_used h) n4) as [u ->]. cbn [res_bind]. destruct (WS (ph_free h) n4) as [f ->]. cbn [res_bind].
  unfold increment_num_rows, set_rows. replace (c_rows (ph_counts h) + 1 <? 8192) with true by lia. cbn [res_bind]. rewrite last_row_index_spec. cbn [c_rows].
  set (nr := c_rows (ph_counts h)) in *. replace (nr + 1 =? 0) with false by lia. replace (nr + 1 - 1) with nr by lia. unfold num_row_groups in P6. fold nr in P6.
  destruct (getN (dc_groups c) (nr / 16)) as [g|] eqn:EG.
  - cbn [res_bind]. rewrite EG. destruct (WS f 2) as [f2 ->]. cbn [res_bind]. now eexists _, _.
  - destruct (WS f 4) as [f4 ->]. cbn [res_bind]. apply getN_None in EG. rewrite getN_app. replace (nr / 16 <? len (dc_groups c)) with false by lia.
    replace (nr / 16 - len (dc_groups c)) with 0 by lia. rewrite getN_0. destruct (WS f4 2) as [f2 ->]. cbn [res_bind]. now eexists _, _.
Qed.
(** Reserving nothing and inserting a row: the next insertion hits the same offset. *)
Lemma zero_collides b Q db ps h c r p1 n p2 t r2 :
  alloc_ok b Q db ps h c -> 6 <= ph_free h -> step b 0 (Some r) (mk_page h (PData c)) = Ok p1 -> n <= 65528 -> alloc_row b n p1 = Ok (p2, Some t) ->
  insert_row t r2 p2 = Panic.
Proof.
  intros HOK HFR HS HN HA. unfold step in HS. destruct (alloc_row b 0 (mk_page h (PData c))) as [[q tq]| |] eqn:EQ; try easy. cbn [res_bind] in HS.
  pose proof HOK as ((_ & _ & _ & _ & _ & HL0 & HG0 & _) & HP0 & HS0 & _).
  destruct tq as [tq|].
  2:{ destruct (alloc_eq b 0 h c) as (gs & E & _); try easy; [lia|]. rewrite EQ in E. change (up4 0 + 6) with 6 in E. replace (ph_free h <? 6) with false in E by lia.
      now destruct (8191 <=? c_rows (ph_counts h)). }
  assert (0 <= 65528) as HZ by lia.
  destruct (alloc_row_ok b Q db ps h c 0 q tq HOK HZ EQ) as (h1 & gs1 & -> & HOK1 & HSR & HC1 & HU1 & -> & HF & HO).
  destruct HOK1 as ((P1 & P2 & P3 & P4 & P5 & P6 & P7 & P8 & P9 & P10 & P11) & H0 & H1 & H2 & H3 & H4). cbn [dc_header dc_groups dc_rows] in *.
  set (nr := c_rows (ph_counts h)) in *.
  assert (map_get (ph_used h) (dc_rows c) = None) as MN. { apply map_get_none. intro X. apply HOK in X. lia. }
  destruct (getN_lt_Some gs1 (nr / 16)) as [grp EG]. { rewrite P6, HC1. unfold num_row_groups. cbn [c_rows]. lia. }
  rewrite (insert_eq _ _ _ _ grp) in HS by assumption. destruct (2047 <=? c_valid (ph_counts h1)); [easy|]. injection HS as <-.
  cbn [tk_offset tk_group tk_sub dc_header dc_groups dc_rows] in *.
  assert (rgroup_ok grp) as OKG. { rewrite Forall_forall in P7. apply P7. apply in_getN. now exists (nr / 16). }
  match type of HA with alloc_row _ _ (mk_page ?hh (PData ?cc)) = _ => destruct (alloc_eq b n hh cc HN) as (gs & E & _) end.
  { cbn [phdr_upd ph_used ph_free]. lia. }
  { cbn [phdr_upd ph_counts dc_groups]. rewrite len_set_nth. exact P6. }
  { cbn [dc_groups]. apply Forall_set_nth; [easy|]. apply mark_present_ok; [easy|lia]. }
  rewrite HA in E. cbn [phdr_upd ph_used ph_free ph_counts dc_rows dc_header c_rows c_valid] in E.
  destruct (ph_free h1 <? up4 n + 6); [easy|]. destruct (8191 <=? c_rows (ph_counts h1)); [easy|]. injection E as -> ->.
  unfold insert_row. cbn [pg_content pg_header tk_offset dc_rows]. rewrite HU1. change (up4 0) with 0. rewrite N.add_0_r.
  rewrite map_get_insert by easy. now rewrite N.eqb_refl.
Qed.

(** ** Accounting *)
(** The size that is reserved. *)
Lemma up4_spec n : least_multiple 4 n (up4 n).
Proof. unfold least_multiple, up4. split; [lia|]. split; [lia|]. intros x H1 H2. lia. Qed.
Lemma alloc_accounts b n h c p' t :
  (b = Debug \/ n <= 65528) -> n < 65536 -> ph_used h + ph_free h < 65536 ->
  len (dc_groups c) = (c_rows (ph_counts h) + 15) / 16 -> Forall rgroup_ok (dc_groups c) ->
  alloc_row b n (mk_page h (PData c)) = Ok (p', Some t) ->
  exists h' c' size, p' = mk_page h' (PData c') /\ least_multiple 4 n size /\
    tk_offset t = ph_used h /\ ph_used h' = ph_used h + size /\
    c_rows (ph_counts h') = c_rows (ph_counts h) + 1 /\ len (dc_groups c') = (c_rows (ph_counts h') + 15) / 16 /\
    ph_used h' + ph_free h' + (4 * len (dc_groups c') + 2 * c_rows (ph_counts h')) =
      ph_used h + ph_free h + (4 * len (dc_groups c) + 2 * c_rows (ph_counts h)) /\
    c_valid (ph_counts h') = c_valid (ph_counts h) /\ same_rest h h' /\ dc_header c' = dc_header c /\ dc_rows c' = dc_rows c.
Proof.
  intros HB HN HU HL HG HA. assert (n <= 65528) as HN2.
  { destruct HB as [->|HB]; [|easy]. destruct (N.le_gt_cases n 65528) as [H|H]; [easy|]. now rewrite alloc_big_debug in HA. }
  destruct (alloc_eq b n h c HN2 HU HL HG) as (gs & E & L & G & SF & SO). rewrite E in HA. clear E.
  destruct (ph_free h <? up4 n + 6) eqn:EF; [easy|]. destruct (8191 <=? c_rows (ph_counts h)) eqn:EN; [easy|]. injection HA as <- <-.
  eexists _, _, (up4 n). split; [reflexivity|]. split; [apply up4_spec|].
  cbn [tk_offset phdr_upd ph_used ph_free ph_counts c_rows c_valid dc_groups dc_header dc_rows]. rewrite L, HL. repeat (split; [try reflexivity; lia|]).
  split; [destruct (c_rows (ph_counts h) mod 16 =? 0) eqn:EM; lia|]. split; [reflexivity|]. split; [repeat split|]. easy.
Qed.
Lemma alloc_refused b n p p' :
  n <= 65528 -> alloc_row b n p = Ok (p', None) -> p' = p.
Proof.
  intros HN H. unfold alloc_row in H. destruct (pg_content p) as [c|c]; [|congruence]. rewrite next_mul4_ok in H by lia. cbn [res_bind] in H.
  assert (up4 n <= 65528) by (unfold up4; lia). rewrite wadd_ok in H by (change (2 ^ 16) with 65536; lia). cbn [res_bind] in H.
  rewrite wadd_ok in H by (change (2 ^ 16) with 65536; lia). cbn [res_bind] in H.
  destruct (ph_free (pg_header p) <? up4 n + 4 + 2); [congruence|].
  repeat match type of H with
  | (do! _ <- ?e; _) = _ => destruct e as [[? ?]| |] eqn:?; [cbn [res_bind] in H|easy|easy]
  | (do! _ <- ?e; _) = _ => destruct e eqn:?; [cbn [res_bind] in H|easy|easy]
  | match ?e with Some _ => _ | None => _ end = _ => destruct e as [[? ?]|] eqn:?; [|easy]
  | match ?e with Some _ => _ | None => _ end = _ => destruct e as [?|] eqn:?; [|easy]
  end; easy.
Qed.
Lemma alloc_refused_iff b n p :
  n <= 65528 ->
  (alloc_row b n p = Ok (p, None) <->
    match pg_content p with PIndex _ => True | PData _ => exists size, least_multiple 4 n size /\ ph_free (pg_header p) < size + 6 end).
Proof.
  intros HN. unfold alloc_row. destruct (pg_content p) as [c|c]; [|easy]. rewrite next_mul4_ok by lia. cbn [res_bind].
  assert (up4 n <= 65528) by (unfold up4; lia). rewrite wadd_ok by (change (2 ^ 16) with 65536; lia). cbn [res_bind].
  rewrite wadd_ok by (change (2 ^ 16) with 65536; lia). cbn [res_bind].
  destruct (ph_free (pg_header p) <? up4 n + 4 + 2) eqn:E.
  - split; [|easy]. intros _. exists (up4 n). split; [apply up4_spec|lia].
  - split.
    + intro H0. exfalso. repeat match type of H0 with
      | (do! _ <- ?e; _) = _ => destruct e as [[? ?]| |] eqn:?; [cbn [res_bind] in H0|easy|easy]
      | (do! _ <- ?e; _) = _ => destruct e eqn:?; [cbn [res_bind] in H0|easy|easy]
      | match ?e with Some _ => _ | None => _ end = _ => destruct e as [[? ?]|] eqn:?; [|easy]
      | match ?e with Some _ => _ | None => _ end = _ => destruct e as [?|] eqn:?; [|easy]
      end; easy.
    + intros (size & HS & HF). rewrite (least_multiple_fun _ _ _ _ HS (up4_spec n)) in HF. lia.
Qed.
(** The pages reached by a run, and what they mean for reading. *)
Lemma run_tidy b db ps ops h c p' :
  alloc_ok b dstr_good db ps h c -> Forall (op_ok b dstr_good (ph_type h)) ops -> run b ops (mk_page h (PData c)) = Ok p' ->
  exists h' c' new, p' = mk_page h' (PData c') /\ dpage_ok dstr_good db ps h' c' /\ page_tidy b ps c' /\ extends (mk_page h (PData c)) p' new /\
    (forall k r, map_get k (dc_rows c) = Some r -> map_get k (dc_rows c') = Some r) /\
    forall buf pos buf' q, page_write b ps p' (buf, pos) = Ok (buf', q) ->
      q = pos + ps /\ exists p, rd_page b (rd_dstr b) ps db buf' pos = Ok (p, pos + ps) /\ reads_as b h' c' p.
Proof.
  intros HOK HF HR. destruct (run_ok b dstr_good db ps ops h c p' HOK HF HR) as (h' & c' & new & -> & HOK' & HE & _).
  exists h', c', new. split; [easy|]. split; [apply HOK'|]. split; [now apply (alloc_ok_tidy _ _ _ _ _ _ HOK')|]. split; [easy|]. split.
  - intros k r HK. destruct HE as (h0 & c0 & h1 & c1 & E1 & E2 & _ & _ & ER & _). injection E1 as <- <-. injection E2 as <- <-. rewrite ER.
    assert (sorted (dc_rows c')) as HS by apply HOK'. rewrite ER in HS. apply map_get_some in HK. 
    apply map_get_in; [easy|]. apply in_or_app. now left.
  - intros buf pos buf' q HW. apply (tidy_page_write_read b db ps h' c' buf); try easy; [apply HOK'|now apply (alloc_ok_tidy _ _ _ _ _ _ HOK')].
Qed.
