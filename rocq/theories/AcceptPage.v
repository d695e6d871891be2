(** * Which pages of databases are accepted, and where they end

    Facts about the readers of src/pdb/mod.rs (modelled in [Page.v]); no further code of /repo is modelled here. *)
From Coq Require Import NArith ZArith List Bool Lia.
From Coq Require Import ZifyBool ZifyNat ZifyN.
From Verif Require Import Base BaseFacts Str StrFacts Schema SchemaFacts Oa OaFacts Rows RowFacts Page PageFacts PageRw AllocFacts AllocSpec Layout LayoutDb Accept AcceptStr.
Import ListNotations.
Open Scope N_scope.

(** ** Spec *)
(** An index page: two constants, and as many entries of four bytes as the page says. *)
Definition index_in (buf : list N) (pos fin : N) : Prop :=
  number buf (pos + 36) 2 = Some 0x3ec /\ number buf (pos + 48) 8 = Some 0x3ffffff /\ exists n, number buf (pos + 56) 2 = Some n /\ fin = pos + 60 + 4 * n /\ fin <= len buf.
(** The offset of some row that is marked as present in one of [g] groups of 16 rows in front of [fin]. *)
Definition present_at (buf : list N) (fin g o : N) : Prop := exists s, s / 16 < g /\ slot_present buf fin s /\ slot_offset buf fin s = Some o.
(** A data page: the groups fit between the start of the file and the end of the page, there are as many different offsets of present rows as the page says, and a row of the type
    of the page is stored at each. *)
Definition data_in (b : build) (ps : N) (db : dbtype) (buf : list N) (pos fin : N) : Prop := exists t c g os,
  number buf (pos + 8) 4 = Some t /\ number buf (pos + 24) 3 = Some c /\ pos + 40 <= len buf /\ fin = pos + ps /\
  g = (c mod 8192 + 15) / 16 /\ (g = 0 \/ 36 * g <= fin /\ fin <= len buf) /\
  NoDup os /\ (forall o, In o os <-> present_at buf fin g o) /\ len os = c / 8192 /\
  forall o k, In o os -> In (t, k) (page_types db) -> exists ns ds q, row_in b k buf (pos + 40 + o) ns ds q.
(** Bit 6 of the flags tells them apart. *)
Definition page_in (b : build) (ps : N) (db : dbtype) (buf : list N) (pos fin : N) : Prop :=
  number buf pos 4 = Some 0 /\ exists f, getN buf (pos + 27) = Some f /\ if N.testbit f 6 then index_in buf pos fin else data_in b ps db buf pos fin.

(** ** Headers *)
Lemma number_le_total n buf pos : pos + N.of_nat n <= len buf -> exists x, number buf pos n = Some x.
Proof. intro H. destruct n as [|n]; [now exists 0|]. destruct (rd_int_total LE (S n) buf pos H) as [x X]. apply rd_int_number in X as [X _]; [|discriminate]. now exists x. Qed.
Ltac rint := match goal with |- context [rd_int LE ?n ?buf ?p] => let X := fresh in destruct (rd_int_total LE n buf p) as [? X]; [lia|rewrite X; clear X; cbv beta iota] end.
Lemma phdr_total db buf pos : number buf pos 4 = Some 0 -> pos + 32 <= len buf -> exists h, rd_phdr db buf pos = Ok (h, pos + 32).
Proof.
  intros H0 HL. unfold rd_phdr, phdr_fields, u32f, u16f, u8f. cbn [rd_fields rd_field]. unfold bind, ret. cbv beta. change (rd_int LE 4 buf pos) with (rd_le 4 buf pos). rewrite (rd_le_at_total 4 buf pos 0 ltac:(discriminate) H0). cbv beta iota. change (0 =? 0) with true. cbn [guard]. unfold ret. cbv beta iota.
  repeat rint. cbn [phdr_of]. unfold lift. eexists. f_equal. f_equal. lia.
Qed.
Lemma icontent_exact buf pos fin : pos + 32 <= len buf -> ((exists c, rd_icontent buf (pos + 32) = Ok (c, fin)) <-> index_in buf pos fin).
Proof.
  intro HL. split.
  - intros [c H]. pose proof (icontent_layout _ _ _ _ H) as (_ & _ & M1 & _ & _ & _ & M2 & NN & NF & L & _). split; [exact M1|]. split; [exact M2|]. exists (ih_num (ic_header c)). split; [exact NN|].
    unfold rd_icontent in H. apply bind_inv in H as (vs & q & R1 & H). apply bind_inv in H as (h & q1 & R2 & H). apply bind_inv in H as (es & q2 & R3 & H). apply ret_inv in H as [<- <-]. cbn [ic_header ic_entries] in *.
    apply lift_eq in R2 as [R2 <-]. cbn [ihdr_fields rd_fields u16f u32f rd_field u8f] in R1. invr. apply (rd_count_numbers LE 4 buf ltac:(discriminate)) in R3 as (L3 & -> & G). split; [lia|].
    apply number_len in NF; [|discriminate]. destruct (N.eq_dec (len es) 0) as [Z|Z]; [lia|]. destruct (getN_lt_Some es (len es - 1)) as [ee EE]; [lia|]. apply G in EE. apply number_len in EE; [|discriminate]. lia.
  - intros (M1 & M2 & n & NN & -> & HF). unfold rd_icontent, ihdr_fields, u16f, u32f. cbn [rd_fields rd_field]. unfold bind, ret. cbv beta. do 2 rint.
    replace (pos + 32 + N.of_nat 2 + N.of_nat 2) with (pos + 36) by lia. change (rd_int LE 2 buf (pos + 36)) with (rd_le 2 buf (pos + 36)). rewrite (rd_le_at_total 2 buf (pos + 36) 0x3ec ltac:(discriminate) M1). cbv beta iota. change (0x3ec =? 0x3ec) with true. cbn [guard]. unfold ret. cbv beta iota.
    do 3 rint. replace (pos + 36 + N.of_nat 2 + N.of_nat 2 + N.of_nat 4 + N.of_nat 4) with (pos + 48) by lia. change (rd_int LE 8 buf (pos + 48)) with (rd_le 8 buf (pos + 48)). rewrite (rd_le_at_total 8 buf (pos + 48) 0x3ffffff ltac:(discriminate) M2). cbv beta iota. change (0x3ffffff =? 0x3ffffff) with true. cbn [guard]. unfold ret. cbv beta iota.
    replace (pos + 48 + N.of_nat 8) with (pos + 56) by lia. change (rd_int LE 2 buf (pos + 56)) with (rd_le 2 buf (pos + 56)). rewrite (rd_le_at_total 2 buf (pos + 56) n ltac:(discriminate) NN). cbv beta iota. rint. cbn [ihdr_of]. unfold lift. cbv beta iota. cbn [ih_num].
    replace (pos + 56 + N.of_nat 2 + N.of_nat 2) with (pos + 60) by lia.
    assert (forall m q, q + 4 * N.of_nat m <= len buf -> exists l, rd_count m (rd_le 4) buf q = Ok (l, q + 4 * N.of_nat m)) as HC.
    { induction m as [|m IH]; intros q HQ; cbn [rd_count]; [exists []; unfold ret; now replace (q + 4 * N.of_nat 0) with q by lia|]. unfold bind. destruct (rd_int_total LE 4 buf q) as [ee EE]; [lia|]. cbn [rd_int] in EE. rewrite EE.
      change (N.of_nat 4) with 4. destruct (IH (q + 4)) as [l E]; [lia|]. rewrite E. exists (ee :: l). unfold ret. now replace (q + 4 + 4 * N.of_nat m) with (q + 4 * N.of_nat (S m)) by lia. }
    destruct (HC (N.to_nat n) (pos + 60)) as [l E]; [lia|]. rewrite E. eexists. rewrite N2Nat.id. reflexivity.
Qed.
(** ** Groups *)
Lemma rgroup_total buf e : 36 <= e -> e <= len buf -> exists g, rd_rgroup buf e = Ok (g, e - 36).
Proof.
  intros H1 H2. unfold rd_rgroup, bind, seek_rel. replace (Z.of_N e + -36 <? 0)%Z with false by lia. replace (Z.to_N (Z.of_N e + -36)) with (e - 36) by lia. destruct (rd_count_le2_total 16 buf (e - 36)) as (l & E & _); [lia|]. rewrite E.
  destruct (rd_int_total LE 2 buf (e - 36 + 2 * N.of_nat 16)) as [x X]; [lia|]. cbn [rd_int] in X. rewrite X. destruct (rd_int_total LE 2 buf (e - 36 + 2 * N.of_nat 16 + N.of_nat 2)) as [y Y]; [lia|]. cbn [rd_int] in Y. rewrite Y.
  match goal with |- context [(?z <? 0)%Z] => replace (z <? 0)%Z with false by lia end. unfold ret. eexists. f_equal. f_equal. lia.
Qed.
Lemma groups_total buf : forall n e, 36 * N.of_nat n <= e -> e <= len buf -> exists gs p, rd_count n rd_rgroup buf e = Ok (gs, p).
Proof.
  induction n as [|n IH]; intros e H1 H2; cbn [rd_count]; [unfold ret; eauto|]. unfold bind. destruct (rgroup_total buf e) as [g G]; [lia|exact H2|]. rewrite G. destruct (IH (e - 36)) as (gs & p & E); [lia|lia|]. rewrite E. unfold ret. eauto.
Qed.
Lemma groups_present buf n e gs p : bytes_ok buf -> rd_count n rd_rgroup buf e = Ok (gs, p) -> forall o, In o (flat_map present_offsets gs) <-> present_at buf e (N.of_nat n) o.
Proof.
  intros HB RG o. pose proof RG as RG2. apply groups_numbers in RG as (LG & GG). apply groups_rw in RG2 as (_ & OKG & _ & _ & _); [|assumption].
  assert (forall g x, getN gs g = Some x -> number buf (e - 36 * g - 4) 2 = Some (rg_flags x) /\ forall i, i < 16 -> exists o, getN (rg_offs x) (15 - i) = Some o /\ slot_offset buf e (16 * g + i) = Some o) as HG.
  { intros g x HX. apply GG in HX as (B & r & HX). apply rgroup_numbers in HX as (_ & _ & _ & F & U & O). split; [exact F|].
    intros i Hi. destruct (O i Hi) as (o' & O1 & O2). exists o'. split; [exact O1|]. unfold slot_offset.
    replace ((16 * g + i) / 16) with g by lia. now replace ((16 * g + i) mod 16) with i by lia. }
  rewrite (present_slots gs o OKG). unfold present_at. split; intros (s & HS1 & HS2); exists s.
  - unfold slot_flag, slot_off in *. destruct (getN gs (s / 16)) as [g|] eqn:EG; [|discriminate]. split; [apply getN_Some_lt in EG; unfold len in EG; lia|].
    destruct (HG _ _ EG) as (F & O). destruct (O (s mod 16)) as (o' & O1 & O2); [lia|]. replace (16 * (s / 16) + s mod 16) with s in O2 by lia.
    split; [exists (rg_flags g); split; [exact F|now apply testbit_div]|]. congruence.
  - destruct HS2 as [(fl & F1 & F2) O1]. unfold slot_flag, slot_off. destruct (getN_lt_Some gs (s / 16)) as [g EG]; [unfold len; lia|]. rewrite EG.
    destruct (HG _ _ EG) as (F & O). destruct (O (s mod 16)) as (o' & O3 & O2); [lia|]. replace (16 * (s / 16) + s mod 16) with s in O2 by lia.
    split; [apply testbit_div; congruence|congruence].
Qed.
(** ** Data pages *)
Lemma type_unique db t k k' : In (t, k) (page_types db) -> In (t, k') (page_types db) -> k = k'.
Proof. destruct db; cbn; intuition congruence. Qed.
Lemma type_of db t k : ptype_of db t = PT k <-> In (t, k) (page_types db).
Proof.
  pose proof (ptype_number db t) as H. destruct (ptype_of db t) as [k'|c]; cbn [type_number] in H.
  - split; [intro E; assert (k' = k) as <- by congruence; exact H|]. intro HI. f_equal. now apply (type_unique db t).
  - split; [discriminate|]. intro HI. destruct H as [_ H]. destruct (H k HI).
Qed.
Lemma nodup_len (a b : list N) : NoDup a -> NoDup b -> (forall x, In x a <-> In x b) -> len a = len b.
Proof. intros HA HC H. unfold len. f_equal. apply Nat.le_antisymm; apply NoDup_incl_length; try assumption; intros x HX; now apply H. Qed.
Lemma keys_len {A} (m : list (N * A)) : len (keys m) = len m.
Proof. unfold keys. apply len_map. Qed.
Lemma row_reads b k buf pos : bytes_ok buf -> len buf < 2 ^ 64 -> ((exists r q, rd_row (rd_dstr b) (PT k) buf pos = Ok (r, q)) <-> exists ns ds q, row_in b k buf pos ns ds q).
Proof.
  intros HB HL. split.
  - intros (r & q & E). assert (exists ns ds, row_says r k ns ds) as (ns & ds & HS).
    { pose proof E as E'. cbn [rd_row] in E'. apply bind_inv in E' as (vs & p1 & _ & E'). destruct (row_oarr k) as [[off n]|]; [apply bind_inv in E' as (c & p2 & _ & E')|]; apply ret_inv in E' as [<- _]; cbn [row_says]; eauto. }
    exists ns, ds, q. apply row_exact; [exact HB|exact HL|]. now exists r.
  - intros (ns & ds & q & H). apply row_exact in H as (r & R & _); [|exact HB|exact HL]. eauto.
Qed.
Lemma dhdr_total buf pos : pos + 8 <= len buf -> exists vs, rd_fields no_rs dhdr_fields buf pos = Ok (vs, pos + 8).
Proof.
  intro H. unfold dhdr_fields, u16f. cbn [rd_fields rd_field]. unfold bind, ret. cbv beta. repeat rint. eexists. f_equal. f_equal. lia.
Qed.
Lemma dcontent_exact b db ps h buf pos fin t c : bytes_ok buf -> len buf < 2 ^ 64 -> 40 <= ps -> number buf (pos + 8) 4 = Some t -> ph_type h = ptype_of db t -> number buf (pos + 24) 3 = Some c -> ph_counts h = counts_of c ->
  ((exists x, rd_dcontent b (rd_dstr b) ps h buf (pos + 32) = Ok (x, fin)) <-> data_in b ps db buf pos fin).
Proof.
  intros HB H64 HP HT ET HC EC. split.
  - intros [x R]. unfold rd_dcontent in R. apply bind_inv in R as (dh & q & R1 & R). apply bind_inv in R as (heap & q1 & R2 & R).
    apply lift_eq in R2 as [R2 <-]. rewrite page_heap_ok in R2 by assumption. apply Ok_eq in R2 as <-.
    apply bind_inv in R as (base & q2 & RT & R). unfold tell in RT. apply Ok_eq in RT. injection RT as <- <-.
    apply bind_inv in R as (u & q3 & RS & R). unfold seek_to in RS. apply Ok_eq in RS. injection RS as _ <-.
    apply bind_inv in R as (gs & q4 & RG & R). apply bind_inv in R as (u2 & q5 & RS & R). unfold seek_to in RS. apply Ok_eq in RS. injection RS as _ <-.
    apply bind_inv in R as (rows & q6 & RR & R). apply bind_inv in R as (u3 & q7 & RV & R). apply guard_inv in RV as [RV <-].
    apply bind_inv in R as (u4 & q8 & RS & R). unfold seek_to in RS. apply Ok_eq in RS. injection RS as _ <-. apply ret_inv in R as [_ <-].
    cbn [dhdr_fields rd_fields u16f rd_field] in R1. invr.
    match goal with X : number buf (_ + N.of_nat 2 + N.of_nat 2 + N.of_nat 2) 2 = Some _ |- _ => apply number_len in X as HL40; [|discriminate] end.
    match type of RR with match rd_rows_at _ _ ?x _ _ _ with _ => _ end = _ => replace x with (pos + 40) in * by lia end.
    match type of RG with rd_count _ _ _ ?x = _ => replace x with (pos + ps) in * by lia end.
    destruct (rd_rows_at (rd_dstr b) (ph_type h) (pos + 40) (flat_map present_offsets gs) [] buf) as [m| |] eqn:RA; try discriminate. apply Ok_eq in RR. injection RR as -> <-.
    rewrite EC in *. unfold num_row_groups, counts_of in RG. cbn [c_rows] in RG. cbn [counts_of c_valid] in RV. apply N.eqb_eq in RV.
    pose proof (groups_present _ _ _ _ _ HB RG) as HG. rewrite N2Nat.id in HG. pose proof RG as RG2. apply groups_rw in RG2 as (LG & _ & LE36 & _); [|exact HB].
    apply rd_rows_at_inv in RA as (S & GR & K). assert (sorted rows) as HS by (apply S; constructor). clear S.
    exists t, c, ((c mod 8192 + 15) / 16), (keys rows). split; [exact HT|]. split; [exact HC|]. split; [lia|]. split; [lia|]. split; [reflexivity|]. replace (pos + 40 + (ps - 40)) with (pos + ps) by lia. split.
    { destruct (N.eq_dec ((c mod 8192 + 15) / 16) 0) as [Z|Z]; [now left|right]. unfold len in LE36. split; [lia|]. apply groups_numbers in RG as (_ & GG). destruct (getN_lt_Some gs 0) as [g G]; [unfold len; lia|]. apply GG in G as (_ & r & G).
      apply rgroup_numbers in G as (_ & _ & _ & _ & U & _). apply number_len in U; [|discriminate]. lia. }
    split; [now apply sorted_NoDup|]. split.
    { intro o. rewrite <- HG. split; [|intro HI; apply K; now left]. intro HI. destruct (map_get o rows) as [r|] eqn:EM; [|now apply map_get_none in EM]. apply GR in EM as [[HI2 _]|[_ EM]]; [exact HI2|discriminate]. }
    split; [rewrite keys_len; lia|]. intros o k HI HK. apply type_of in HK. destruct (map_get o rows) as [r|] eqn:EM; [|now apply map_get_none in EM]. apply GR in EM as [(_ & q & EM)|[_ EM]]; [|discriminate]. rewrite ET, HK in EM. apply row_reads; [exact HB|exact H64|]. eauto.
  - intros (t' & c' & g & os & HT' & HC' & HL & -> & -> & HGr & ND & HO & LO & HR). assert (t' = t) as -> by congruence. assert (c' = c) as -> by congruence. clear HT' HC'.
    unfold rd_dcontent, bind. destruct (dhdr_total buf (pos + 32)) as [vs V]; [lia|]. rewrite V. rewrite page_heap_ok by exact HP. unfold lift, tell, seek_to. cbv beta iota.
    replace (pos + 32 + 8) with (pos + 40) by lia. replace (pos + 40 + (ps - 40)) with (pos + ps) by lia. rewrite EC. unfold num_row_groups, counts_of. cbn [c_rows c_valid].
    assert (exists gs p, rd_count (N.to_nat ((c mod 8192 + 15) / 16)) rd_rgroup buf (pos + ps) = Ok (gs, p)) as (gs & p & RG).
    { destruct HGr as [Z|[H1 H2]]; [rewrite Z; cbn; unfold ret; eauto|]. apply groups_total; [lia|exact H2]. }
    rewrite RG. cbv beta iota. pose proof (groups_present _ _ _ _ _ HB RG) as HG. rewrite N2Nat.id in HG.
    set (F := fun o => match rd_row (rd_dstr b) (ph_type h) buf (pos + 40 + o) with Ok (r, _) => r | _ => RUnknown end).
    destruct (rd_rows_at_ok (rd_dstr b) (ph_type h) (pos + 40) buf F (flat_map present_offsets gs) []) as (m & RA & S & G).
    { intros o HI. unfold F. apply HG, HO in HI. rewrite ET. destruct (ptype_of db t) as [k|cc] eqn:EP; [|cbn [rd_row]; unfold ret; eauto]. apply type_of in EP. specialize (HR o k HI EP). apply row_reads in HR as (r & q & HR); [|exact HB|exact H64]. rewrite HR. eauto. }
    rewrite RA. cbv beta iota. assert (sorted m) as HS by (apply S; constructor).
    replace (len m =? c / 8192) with true; [unfold guard, ret; cbv beta iota; eexists; reflexivity|]. symmetry. apply N.eqb_eq. rewrite <- LO, <- keys_len. apply nodup_len; [now apply sorted_NoDup|exact ND|].
    intro o. rewrite HO, <- HG. specialize (G o). destruct (mem o (flat_map present_offsets gs)) eqn:EM.
    + apply mem_in in EM. split; [intros _; exact EM|intros _]. destruct (in_dec N.eq_dec o (keys m)) as [I|I]; [exact I|]. apply map_get_none in I. congruence.
    + split; [intro I; exfalso; cbn [map_get] in G; apply map_get_none in G; contradiction|]. intro I. apply mem_in in I. congruence.
Qed.
Lemma page_exact b ps db buf pos fin : bytes_ok buf -> len buf < 2 ^ 64 -> 40 <= ps -> ((exists p, rd_page b (rd_dstr b) ps db buf pos = Ok (p, fin)) <-> page_in b ps db buf pos fin).
Proof.
  intros HB H64 HP. split.
  - intros [p H]. unfold rd_page in H. apply bind_inv in H as (h & q & RH & H). pose proof RH as RH2. apply phdr_layout in RH as [-> (M & _ & (t & T & _) & _ & _ & _ & (c & C & _) & F & _ & U)]. apply number_len in U as LU; [|discriminate]. rewrite number_1 in F.
    split; [exact M|]. exists (ph_flags h). split; [exact F|]. unfold is_index_page in H. destruct (N.testbit (ph_flags h) 6).
    + apply bind_inv in H as (x & q & R & H). apply ret_inv in H as [_ <-]. apply icontent_exact; [lia|]. now exists x.
    + apply bind_inv in H as (x & q & R & H). apply ret_inv in H as [_ <-]. assert (ph_type h = ptype_of db t /\ ph_counts h = counts_of c) as [ET EC].
      { unfold rd_phdr in RH2. apply bind_inv in RH2 as (vs & q1 & R1 & R2). cbn [phdr_fields rd_fields u16f u32f rd_field u8f] in R1. invr. apply lift_eq in R2 as [R2 _]. apply Ok_eq in R2 as <-. cbn [ph_type ph_counts].
        split; f_equal; match goal with X : number buf ?p ?w = Some ?x, Y : number buf ?p' ?w = Some ?y |- ?x = ?y => replace p with p' in X by lia; congruence end. }
      apply (dcontent_exact b db ps h buf pos q t c); try assumption. now exists x.
  - intros (M & f & F & H). assert (pos + 32 <= len buf) as HL.
    { destruct (N.testbit f 6); [destruct H as (_ & H & _); apply number_len in H; [lia|discriminate]|]. destruct H as (t & c & g & os & _ & _ & H & _). lia. }
    destruct (phdr_total db buf pos M HL) as [h RH]. unfold rd_page, bind. rewrite RH. pose proof RH as RH2. apply phdr_layout in RH as [_ (_ & _ & (t & T & _) & _ & _ & _ & (c & C & _) & F2 & _)]. rewrite number_1 in F2. assert (ph_flags h = f) as -> by congruence. unfold is_index_page. destruct (N.testbit f 6).
    + apply icontent_exact in H as [x X]; [|exact HL]. rewrite X. unfold ret. eauto.
    + assert (ph_type h = ptype_of db t /\ ph_counts h = counts_of c) as [ET EC].
      { unfold rd_phdr in RH2. apply bind_inv in RH2 as (vs & q1 & R1 & R2). cbn [phdr_fields rd_fields u16f u32f rd_field u8f] in R1. invr. apply lift_eq in R2 as [R2 _]. apply Ok_eq in R2 as <-. cbn [ph_type ph_counts].
        split; f_equal; match goal with X : number buf ?p ?w = Some ?x, Y : number buf ?p' ?w = Some ?y |- ?x = ?y => replace p with p' in X by lia; congruence end. }
      apply (dcontent_exact b db ps h buf pos fin t c) in H as [x X]; try assumption. rewrite X. unfold ret. eauto.
Qed.
