(** How often programs save does not show in the file (C106). *)
From Coq Require Import NArith ZArith List Bool Lia.
From Coq Require Import ZifyBool ZifyNat ZifyN.
From Verif Require Import Base BaseFacts Segs Str StrFacts StrGood Schema SchemaFacts Oa OaFacts OaSpec Rows RowFacts RowSpec Page BitFacts PageFacts PageRw PageSpec IndexSpec Alloc AllocFacts AllocSpec Db DbFacts DbFlush DbFresh Reread Progress Insert Session Delete Revise Relink Untouched Remains.
Import ListNotations.
Ltac Zify.zify_post_hook ::= Z.div_mod_to_equations.
Open Scope N_scope.

(** ** Spec *)
(** What programs do to page [i]: rows, and changes of its type and link; in this order, without the saves in between. *)
Inductive edit1 : Type := EdRow (n : N) (r : row) | EdLabel (n : N) (t : ptype).
Definition op_edit (op : N * option row) : list edit1 := match snd op with Some r => [EdRow (fst op) r] | None => [] end.
Definition act_edits (i : N) (a : act) : list edit1 := match a with AInsert j ops => if j =? i then flat_map op_edit ops else [] | _ => [] end.
Definition task_edits (i : N) (a : task) : list edit1 :=
  match a with TActs _ l => flat_map (act_edits i) l | TLabel j n t => if j =? i then [EdLabel n t] else [] | THeader _ => [] end.
Definition edits (i : N) (l : list task) : list edit1 := flat_map (task_edits i) l.
(** Pages in which programs do something else: assign, delete, or reserve space without a row. *)
Definition act_reworks (P : rkind -> list N) (a : act) : list N :=
  match a with
  | AInsert j ops => if forallb (fun op => match snd op with Some _ => true | None => false end) ops then [] else [j]
  | AAssign j _ => [j] | AAssignAll k _ => P k | ADelete j _ => [j] | ASave => []
  end.
Definition task_reworks (a : task) : list N := match a with TActs P l => flat_map (act_reworks P) l | _ => [] end.
Definition reworked (l : list task) : list N := flat_map task_reworks l.
(** The last slot of every group of slots is that of a row. *)
Definition snug (p : page) : Prop :=
  match pg_content p with
  | PData c => let nr := c_rows (ph_counts (pg_header p)) in forall k, 16 * k < nr -> slot_flag (dc_groups c) (N.min (16 * k + 15) (nr - 1)) = true
  | PIndex _ => False
  end.

(** ** The bytes that segments give *)
Definition val (l : list seg) (x v : N) : Prop := exists s, In s l /\ fst s <= x /\ getN (snd s) (x - fst s) = Some v.
Definition cov (l : list seg) (x : N) : Prop := exists v, val l x v.
Lemma val_app l l' x v : val (l ++ l') x v <-> val l x v \/ val l' x v.
Proof.
  unfold val. split.
  - intros (s & H & H2). apply in_app_iff in H as [H|H]; [left|right]; now exists s.
  - intros [(s & H & H2)|(s & H & H2)]; exists s; (split; [apply in_app_iff; auto|exact H2]).
Qed.
Lemma val_cons s l x v : val (s :: l) x v <-> (fst s <= x /\ getN (snd s) (x - fst s) = Some v) \/ val l x v.
Proof.
  unfold val. split.
  - intros (t & [->|H] & H2); [now left|right; now exists t].
  - intros [H|(t & H & H2)]; [exists s; split; [now left|exact H]|exists t; split; [now right|exact H2]].
Qed.
Lemma val_nil x v : ~ val [] x v. Proof. now intros (s & [] & _). Qed.
Lemma val_in io l x v : segs_in io l -> val l x v -> getN io x = Some v.
Proof.
  intros HS (s & HI & H1 & H2). unfold segs_in in HS. rewrite Forall_forall in HS. specialize (HS s HI). apply has_get in HS as [_ HG]. pose proof (getN_Some_lt _ _ _ H2) as HL. specialize (HG (x - fst s) HL). replace (fst s + (x - fst s)) with x in HG by lia. congruence.
Qed.
Lemma val_range l lo hi x v : segs_within lo hi l -> val l x v -> lo <= x /\ x < hi.
Proof. intros HS (s & HI & H1 & H2). unfold segs_within in HS. rewrite Forall_forall in HS. specialize (HS s HI). unfold seg_end in HS. apply getN_Some_lt in H2. lia. Qed.
Lemma val_fun : forall l x v w, segs_disj l -> val l x v -> val l x w -> v = w.
Proof.
  assert (forall s t x v w, seg_disj s t -> fst s <= x /\ getN (snd s) (x - fst s) = Some v -> fst t <= x /\ getN (snd t) (x - fst t) = Some w -> False) as HX.
  { intros s t x v w H [A1 A2] [B1 B2]. apply getN_Some_lt in A2, B2. unfold seg_disj, seg_end in H. lia. }
  induction l as [|s l IH]; intros x v w HD HV HW; [now apply val_nil in HV|]. destruct HD as [D1 D2]. rewrite Forall_forall in D1. apply val_cons in HV, HW. destruct HV as [HV|HV], HW as [HW|HW].
  - destruct HV, HW. congruence.
  - destruct HW as (t & T1 & T2). exfalso. exact (HX s t x v w (D1 t T1) HV T2).
  - destruct HV as (t & T1 & T2). exfalso. exact (HX s t x w v (D1 t T1) HW T2).
  - now apply (IH x).
Qed.
Lemma cov_seg l x : (exists s, In s l /\ fst s <= x < seg_end s) -> cov l x.
Proof. intros (s & HI & H). unfold seg_end in H. destruct (getN_lt_Some (snd s) (x - fst s)) as [v E]; [lia|]. exists v, s. split; [exact HI|]. split; [lia|exact E]. Qed.

(** ** Rows *)
(** A row with computed offsets writes at least the bytes that it writes after it was read again. *)
Lemma calc_vals b base : forall items cur os body, calc_body b cur items = Ok (os, body) ->
  exists l, items_segs b base items os = Ok l /\ forall x v, val l x v -> base + cur <= x /\ getN body (x - (base + cur)) = Some v.
Proof.
  induction items as [|d items IH]; intros cur os body H; cbn [calc_body] in H; [injection H as <- <-; exists []; split; [reflexivity|]; intros x v HV; now apply val_nil in HV|].
  destruct (dstr_enc b d) as [y| |] eqn:E; [|easy|easy]. cbn [res_bind] in H. set (al := aligned_offset cur (dstr_align d)) in *.
  destruct (calc_body b (al + len y) items) as [[os' z]| |] eqn:E2; [|easy|easy]. cbn [res_bind] in H. injection H as <- <-. destruct (IH _ _ _ E2) as (l & EL & HL). cbn [items_segs]. rewrite E. cbn [res_bind]. rewrite EL. cbn [res_bind].
  eexists. split; [reflexivity|]. assert (cur <= al) as HAL by apply aligned_ge. intros x v HV. apply val_cons in HV as [[V1 V2]|HV].
  - cbn [fst snd] in V1, V2. split; [lia|]. pose proof (getN_Some_lt _ _ _ V2) as VL. rewrite getN_app, len_zeros. replace (x - (base + cur) <? al - cur) with false by lia. rewrite getN_app. replace (x - (base + cur) - (al - cur)) with (x - (base + al)) by lia. now replace (x - (base + al) <? len y) with true by lia.
  - apply HL in HV as [V1 V2]. split; [lia|]. rewrite getN_app, len_zeros. replace (x - (base + cur) <? al - cur) with false by lia. rewrite getN_app. replace (x - (base + cur) - (al - cur) <? len y) with false by lia.
    rewrite <- V2. f_equal. lia.
Qed.
Lemma row_vals b Q r pos l r' p : row_ok Q r -> row_segs b r pos = Ok (l, r', p) -> exists l' p', row_segs b r' pos = Ok (l', r', p') /\ forall x v, val l' x v -> val l x v.
Proof.
  intros HR HE. destruct r as [k vs oc|]; [|cbn in HE; injection HE as <- <- <-; cbn; now do 2 eexists]. cbn [row_segs row_ok] in HE, HR. destruct HR as [HV HO].
  destruct (enc_fields b (row_fields k) vs) as [bs| |] eqn:E; [|easy|easy]. cbn [res_bind] in HE.
  destruct (row_oarr k) as [[off m]|] eqn:EK, oc as [c|]; try easy.
  2:{ injection HE as <- <- <-. cbn [row_segs]. rewrite E, EK. cbn [res_bind]. now do 2 eexists. }
  destruct (oarr_segs b off (row_osize vs) c (pos + len bs)) as [[[l0 o] p0]| |] eqn:EO; [|easy|easy]. cbn [res_bind] in HE. injection HE as <- <- <-.
  destruct (row_oarr_fields k off m EK) as (F1 & F2 & F3). assert (len bs = off) as LB by (rewrite <- F2; now apply (fields_enc_len b Q _ vs)).
  cbn [row_segs]. rewrite E, EK. cbn [res_bind]. unfold oarr_segs in *. unfold calculate_base in *. replace (off <=? pos + len bs) with true in EO by lia. replace (off <=? pos + len bs) with true by lia.
  cbn [res_bind oa_offs oa_items] in *.
  destruct (oa_offs c) as [o0|] eqn:EOF.
  - destruct (osize_eqb (of_size o0) (row_osize vs)) eqn:ES; [|easy]. destruct (items_segs b _ (oa_items c) (of_list o0)) eqn:EI; [|easy|easy]. cbn [res_bind] in EO. injection EO as <- <- <-.
    rewrite ES, EI. cbn [res_bind]. now do 2 eexists.
  - destruct (oarr_enc b off (row_osize vs) (oa_items c)) as [[o2 y]| |] eqn:EN; [|easy|easy]. cbn [res_bind] in EO. injection EO as <- <- <-.
    unfold oarr_enc in EN. destruct (calc_body b _ (oa_items c)) as [[os body]| |] eqn:EC; [|easy|easy]. cbn [res_bind] in EN.
    destruct (offs_new (row_osize vs) os) as [o3| |] eqn:ENW; [|easy|easy]. cbn [res_bind] in EN. injection EN as <- <-. apply offs_new_inv in ENW as [-> _]. cbn [of_size of_list]. rewrite osize_eqb_refl.
    destruct (calc_vals b (pos + len bs - off) _ _ _ _ EC) as (l' & EL & HL). rewrite EL. cbn [res_bind]. do 2 eexists. split; [reflexivity|]. intros x v HX. apply val_cons in HX as [HX|HX]; [apply val_cons; now left|]. apply val_cons. right. apply val_cons. left. cbn [fst snd].
    assert (len (offs_enc (mk_offs (row_osize vs) os)) = (len (oa_items c) + 1) * os_bytes (row_osize vs)) as LO by (rewrite len_offs_enc; cbn [of_list of_size]; now rewrite (calc_body_len _ _ _ _ _ EC)).
    apply val_cons in HX as [[X1 X2]|HX].
    + cbn [fst snd] in X1, X2. split; [lia|]. pose proof (getN_Some_lt _ _ _ X2) as XL. rewrite getN_app. now replace (x - (pos + len bs) <? _) with true by lia.
    + apply HL in HX as [X1 X2]. split; [lia|]. rewrite getN_app. replace (x - (pos + len bs) <? _) with false by lia. rewrite <- X2. f_equal. lia.
Qed.
Lemma rows_vals b Q base : forall rows l rows', Forall (fun x => row_ok Q (snd x)) rows -> rows_segs b base rows = Ok (l, rows') -> exists l', rows_segs b base rows' = Ok (l', rows') /\ forall x v, val l' x v -> val l x v.
Proof.
  induction rows as [|[o r] rows IH]; intros l rows' HT H; cbn [rows_segs] in H; [injection H as <- <-; now exists []|].
  inversion HT as [|? ? HR HT2]; subst. cbn [snd] in HR. destruct (row_segs b r (base + o)) as [[[ls r'] p]| |] eqn:E; [|easy|easy]. cbn [res_bind] in H.
  destruct (rows_segs b base rows) as [[l2 rest']| |] eqn:E2; [|easy|easy]. cbn [res_bind] in H. injection H as <- <-.
  destruct (row_vals b Q r _ _ _ _ HR E) as (l1 & p1 & E1 & V1). destruct (IH _ _ HT2 eq_refl) as (l3 & E3 & V3). cbn [rows_segs]. rewrite E1. cbn [res_bind]. rewrite E3. cbn [res_bind]. eexists. split; [reflexivity|].
  intros x v HV. apply val_app in HV. apply val_app. destruct HV; auto.
Qed.
Lemma rows_segs_app b base : forall A l A' B m B', rows_segs b base A = Ok (l, A') -> rows_segs b base B = Ok (m, B') -> rows_segs b base (A ++ B) = Ok (l ++ m, A' ++ B').
Proof.
  induction A as [|[o r] A IH]; intros l A' B m B' H HB; cbn [rows_segs app] in *; [injection H as <- <-; exact HB|].
  destruct (row_segs b r (base + o)) as [[[ls r'] p]| |]; [|easy|easy]. cbn [res_bind] in *. destruct (rows_segs b base A) as [[l2 rest']| |]; [|easy|easy]. cbn [res_bind] in H. injection H as <- <-.
  rewrite (IH l2 rest' B m B' eq_refl HB). cbn [res_bind]. now rewrite app_assoc.
Qed.

(** ** Groups *)
Lemma size_top f m : 1 <= m -> N.testbit f (m - 1) = true -> (forall j, m <= j -> N.testbit f j = false) -> N.size f = m.
Proof.
  intros HM H1 H2. assert (f <> 0) as NZ by (intros ->; now rewrite N.bits_0 in H1). rewrite N.size_log2 by easy. pose proof (N.bit_log2 f NZ) as HL.
  destruct (N.lt_trichotomy (N.log2 f) (m - 1)) as [X|[X|X]]; [|lia|].
  - rewrite N.bits_above_log2 in H1 by lia. easy.
  - rewrite H2 in HL by lia. easy.
Qed.
Lemma snug_skip b Q db ps h c k g : alloc_ok b Q db ps h c -> snug (mk_page h (PData c)) -> getN (dc_groups c) k = Some g -> rg_skip g = 16 - N.min 16 (c_rows (ph_counts h) - 16 * k).
Proof.
  intros ((_ & _ & _ & _ & _ & P6 & P7 & _) & _ & _ & A3 & _) HS HK. pose proof (getN_Some_lt _ _ _ HK) as HL. rewrite P6 in HL. unfold num_row_groups in HL. set (nr := c_rows (ph_counts h)) in *.
  unfold snug in HS. cbn [pg_content pg_header] in HS. fold nr in HS. cbv zeta in HS. assert (16 * k < nr) as HN by lia. specialize (HS k HN).
  unfold rg_skip, leading_zeros16. f_equal. apply size_top; [lia| |].
  - unfold slot_flag in HS. destruct (N.min_spec (16 * k + 15) (nr - 1)) as [[X E]|[X E]]; rewrite E in HS.
    + replace ((16 * k + 15) / 16) with k in HS by lia. rewrite HK in HS. replace ((16 * k + 15) mod 16) with 15 in HS by lia. now replace (N.min 16 (nr - 16 * k) - 1) with 15 by lia.
    + replace ((nr - 1) / 16) with k in HS by lia. rewrite HK in HS. now replace (N.min 16 (nr - 16 * k) - 1) with ((nr - 1) mod 16) by lia.
  - intros j HJ. destruct (N.testbit (rg_flags g) j) eqn:E; [|reflexivity]. exfalso. assert (j < 16) as J16.
    { rewrite Forall_forall in P7. assert (In g (dc_groups c)) as HI by (apply in_getN; now exists k). destruct (P7 g HI) as (_ & _ & HF & _). unfold is_u16 in HF. destruct (N.lt_ge_cases j 16) as [|HGE]; [assumption|].
      rewrite N.bits_above_log2 in E; [easy|]. destruct (N.eq_dec (rg_flags g) 0) as [->|NZ]; [cbn; lia|]. assert (N.log2 (rg_flags g) < 16) by (apply N.log2_lt_pow2; [lia|exact HF]). lia. }
    assert (slot_flag (dc_groups c) (16 * k + j) = true) as X. { unfold slot_flag. replace ((16 * k + j) / 16) with k by lia. rewrite HK. now replace ((16 * k + j) mod 16) with j by lia. }
    apply A3 in X. fold nr in X. lia.
Qed.
Lemma cov_groups x : forall gs endp, Forall rgroup_ok gs -> 36 * len gs <= endp ->
  cov (groups_segs gs endp) x <-> exists k g, getN gs k = Some g /\ endp - 36 * k - 36 + 2 * rg_skip g <= x /\ x < endp - 36 * k.
Proof.
  induction gs as [|g gs IH]; intros endp HG HL.
  - split; [intros [v HV]; now apply val_nil in HV|]. intros (k & g & H & _). apply getN_Some_lt in H. cbn in H. lia.
  - inversion HG as [|? ? G1 G2]; subst. rewrite len_cons in HL. destruct (rg_seg_span g endp G1) as [S1 S2]; [lia|]. specialize (IH (endp - 36) G2 ltac:(lia)). cbn [groups_segs]. split.
    + intros [v HV]. apply val_cons in HV as [[V1 V2]|HV].
      * exists 0, g. split; [reflexivity|]. apply getN_Some_lt in V2. unfold seg_end in S2. unfold rg_seg in *. cbn [fst snd] in *. lia.
      * destruct IH as [IH _]. destruct IH as (k & g' & K1 & K2); [now exists v|]. exists (k + 1), g'. split; [rewrite getN_cons; replace (k + 1 =? 0) with false by lia; now replace (k + 1 - 1) with k by lia|]. lia.
    + intros (k & g' & K1 & K2). destruct (N.eq_dec k 0) as [->|NZ].
      * injection K1 as <-. apply cov_seg. exists (rg_seg g endp). split; [now left|]. unfold seg_end in *. unfold rg_seg in *. cbn [fst snd] in *. lia.
      * destruct IH as [_ IH]. destruct IH as [v HV]; [|exists v; apply val_cons; now right]. exists (k - 1), g'. split; [|lia]. rewrite getN_cons in K1. now replace (k =? 0) with false in K1 by lia.
Qed.
(** A page with more slots covers more. *)
Lemma snug_cov b Q db ps endp h c h' c' x : alloc_ok b Q db ps h c -> snug (mk_page h (PData c)) -> alloc_ok b Q db ps h' c' -> snug (mk_page h' (PData c')) -> ps <= endp -> c_rows (ph_counts h) <= c_rows (ph_counts h') ->
  cov (groups_segs (dc_groups c) endp) x -> cov (groups_segs (dc_groups c') endp) x.
Proof.
  intros H1 S1 H2 S2 HE HN HC. pose proof (alloc_ok_tidy _ _ _ _ _ _ H1) as [T1 _]. pose proof (alloc_ok_tidy _ _ _ _ _ _ H2) as [T2 _]. pose proof H1 as ((_ & _ & _ & _ & _ & P6 & P7 & _) & _). pose proof H2 as ((_ & _ & _ & _ & _ & P6' & P7' & _) & _).
  apply cov_groups in HC as (k & g & K1 & K2); [|easy|lia]. apply cov_groups; [easy|lia|]. pose proof (getN_Some_lt _ _ _ K1) as KL. rewrite (snug_skip b Q db ps h c k g H1 S1 K1) in K2. unfold num_row_groups in *.
  destruct (getN_lt_Some (dc_groups c') k) as [g' E]; [lia|]. exists k, g'. split; [exact E|]. rewrite (snug_skip b Q db ps h' c' k g' H2 S2 E). lia.
Qed.

(** ** One insertion *)
Definition grown_groups (h : phdr) (gs : list rgroup) : list rgroup := if c_rows (ph_counts h) mod 16 =? 0 then gs ++ [rgroup_empty] else gs.
Definition grown_hdr (h : phdr) (n : N) : phdr :=
  let nr := c_rows (ph_counts h) in phdr_upd h (mk_counts (nr + 1) (c_valid (ph_counts h) + 1)) (ph_free h - up4 n - 2 - (if nr mod 16 =? 0 then 4 else 0)) (ph_used h + up4 n).
Definition grown_group (h : phdr) (g : rgroup) : rgroup := let s := c_rows (ph_counts h) mod 16 in mark_present (insert_offset g s (ph_used h)) s.
Lemma set_nth_twice {A} (x y : A) : forall n l, set_nth n y (set_nth n x l) = set_nth n y l.
Proof. induction n as [|n IH]; intros [|a l]; cbn [set_nth]; try easy. now rewrite IH. Qed.
Lemma step_shape b Q db ps h c n r : alloc_ok b Q db ps h c -> op_ok b Q (ph_type h) (n, Some r) ->
  exists g, getN (grown_groups h (dc_groups c)) (c_rows (ph_counts h) / 16) = Some g /\
    step b n (Some r) (mk_page h (PData c)) =
      if ph_free h <? up4 n + 6 then Ok (mk_page h (PData c)) else if ((8191 <=? c_rows (ph_counts h)) || (2047 <=? c_valid (ph_counts h)))%bool then Panic
      else Ok (mk_page (grown_hdr h n) (PData (mk_dcontent (dc_header c) (set_nth (N.to_nat (c_rows (ph_counts h) / 16)) (grown_group h g) (grown_groups h (dc_groups c))) (dc_rows c ++ [(ph_used h, r)])))).
Proof.
  intros HOK [HB HI]. cbn [fst snd] in HB, HI. pose proof HOK as ((P1 & P2 & P3 & P4 & P5 & P6 & P7 & _) & H0 & H1 & _ & _ & K0). set (nr := c_rows (ph_counts h)) in *.
  unfold num_row_groups in P6. fold nr in P6. assert (len (grown_groups h (dc_groups c)) = (nr + 16) / 16) as LG.
  { unfold grown_groups. fold nr. destruct (nr mod 16 =? 0) eqn:E; [rewrite len_app; change (len [rgroup_empty]) with 1|]; lia. }
  destruct (getN_lt_Some (grown_groups h (dc_groups c)) (nr / 16)) as [g EG]; [lia|]. exists g. split; [exact EG|].
  unfold step, alloc_row. cbn [pg_content pg_header].
  assert (up4 n <= 65528) as HU4 by (unfold up4; lia). rewrite next_mul4_ok by lia. cbn [res_bind]. rewrite wadd_ok by (change (2 ^ 16) with 65536; lia). cbn [res_bind]. rewrite wadd_ok by (change (2 ^ 16) with 65536; lia). cbn [res_bind].
  replace (up4 n + 4 + 2) with (up4 n + 6) by lia. destruct (ph_free h <? up4 n + 6) eqn:EF; [reflexivity|].
  rewrite wadd_ok by (change (2 ^ 16) with 65536; lia). cbn [res_bind]. rewrite wsub_ok by lia. cbn [res_bind].
  unfold increment_num_rows, set_rows. fold nr. destruct (nr + 1 <? 8192) eqn:EN; [|now replace (8191 <=? nr) with true by lia]. replace (8191 <=? nr) with false by lia. cbn [orb res_bind]. rewrite last_row_index_spec. cbn [c_rows].
  replace (nr + 1 =? 0) with false by lia. replace (nr + 1 - 1) with nr by lia.
  assert ((match getN (dc_groups c) (nr / 16) with
             | Some _ => Ok (dc_groups c, ph_free h - up4 n)
             | None => do! f <- wsub b 16 (ph_free h - up4 n) 4; Ok (dc_groups c ++ [rgroup_empty], f) end)
            = Ok (grown_groups h (dc_groups c), ph_free h - up4 n - (if nr mod 16 =? 0 then 4 else 0))) as EX.
  { unfold grown_groups in *. fold nr in EG |- *. destruct (nr mod 16 =? 0) eqn:E.
    - assert (getN (dc_groups c) (nr / 16) = None) as -> by (apply getN_None; lia). rewrite wsub_ok by lia. reflexivity.
    - rewrite EG. do 2 f_equal. lia. }
  rewrite EX. cbn [res_bind]. rewrite EG. rewrite wsub_ok by (destruct (nr mod 16 =? 0); lia). cbn [res_bind].
  set (gs := grown_groups h (dc_groups c)) in *. rewrite (insert_eq _ _ _ _ (insert_offset g (nr mod 16) (ph_used h))).
  - cbn [tk_offset tk_group tk_sub dc_header dc_groups dc_rows phdr_upd ph_counts c_valid c_rows ph_free ph_used]. destruct (2047 <=? c_valid (ph_counts h)); [reflexivity|]. f_equal.
    rewrite set_nth_twice. rewrite map_insert_last by (intros o HO; now apply K0). unfold grown_hdr, grown_group. fold nr. f_equal. unfold phdr_upd. cbn [ph_index ph_type ph_next ph_unknown1 ph_unknown2 ph_flags]. f_equal. lia.
  - cbn [tk_offset dc_rows]. apply map_get_none. intro X. apply K0 in X. lia.
  - cbn [tk_group dc_groups]. rewrite getN_set_nth by lia. now rewrite N.eqb_refl.
Qed.

(** ** Two pages that differ in the offsets of their texts, and in slots that are not written *)
Lemma Forall2_get {A B} (R : A -> B -> Prop) : forall l l', Forall2 R l l' -> forall k x y, getN l k = Some x -> getN l' k = Some y -> R x y.
Proof.
  induction 1 as [|a a' l l' H _ IH]; intros k x y H1 H2; [apply getN_Some_lt in H1; cbn in H1; lia|]. rewrite getN_cons in H1. rewrite getN_cons in H2. destruct (k =? 0); [congruence|now apply (IH (k - 1))].
Qed.
Lemma Forall2_set {A} (R : A -> A -> Prop) x y : R x y -> forall l l', Forall2 R l l' -> forall n, Forall2 R (set_nth n x l) (set_nth n y l').
Proof. intro HR. induction 1 as [|a a' l l' H H2 IH]; intros [|n]; cbn [set_nth]; constructor; easy. Qed.
Lemma skipn_set {A} (o : A) : forall n l, (n < length l)%nat -> skipn n (set_nth n o l) = o :: skipn (S n) l.
Proof. induction n as [|n IH]; intros [|a l] H; cbn [length] in H; try lia; [reflexivity|]. cbn [set_nth]. change (skipn (S n) (a :: set_nth n o l)) with (skipn n (set_nth n o l)). rewrite IH by lia. reflexivity. Qed.
Lemma length_set {A} (o : A) : forall n l, length (set_nth n o l) = length l.
Proof. induction n as [|n IH]; intros [|a l]; cbn; auto. Qed.
Lemma grown_same h g g' : rgroup_ok g -> rg_same g g' -> rg_skip g = 16 - c_rows (ph_counts h) mod 16 -> rg_same (grown_group h g) (grown_group h g') /\ rg_skip (grown_group h g) = 15 - c_rows (ph_counts h) mod 16.
Proof.
  intros (G1 & _ & G3 & _) (E1 & E2 & E3 & E4) HK. set (s := c_rows (ph_counts h) mod 16) in *. assert (s < 16) as HS by (unfold s; lia).
  assert (N.size (rg_flags g) = s) as HSZ. { unfold rg_skip, leading_zeros16 in HK. pose proof (size16 _ G3). lia. }
  assert (rg_skip (grown_group h g) = 15 - s) as HK2.
  { unfold rg_skip, leading_zeros16, grown_group. cbn [mark_present insert_offset rg_flags]. fold s. rewrite (size_top _ (s + 1)); [lia|lia| |].
    - replace (s + 1 - 1) with s by lia. rewrite N.lor_spec, N.shiftl_spec_high' by lia. rewrite N.sub_diag. now rewrite orb_true_r.
    - intros j HJ. rewrite N.lor_spec, N.shiftl_spec_high' by lia. rewrite (N.bits_above_log2 1) by (change (N.log2 1) with 0; lia). rewrite orb_false_r. destruct (N.eq_dec (rg_flags g) 0) as [->|NZ]; [apply N.bits_0|]. apply N.bits_above_log2. rewrite N.size_log2 in HSZ by easy. lia. }
  split; [|exact HK2]. unfold rg_same. rewrite HK2. unfold grown_group. cbn [mark_present insert_offset rg_flags rg_unknown rg_offs]. fold s. rewrite E1, E2, !length_set. repeat (split; [easy|]).
  rewrite !skipn_set by (unfold len in *; lia). f_equal. rewrite HK in E4. now replace (S (N.to_nat (15 - s))) with (N.to_nat (16 - s)) by lia.
Qed.

(** The page [q] is like [P]; [lW] are segments in which the rest of the bytes of [P] are found. *)
Definition twin (b : build) (ps pos : N) (lW : list seg) (P q : page) : Prop :=
  exists h cP cq rP xP rq xq, P = mk_page h (PData cP) /\ q = mk_page h (PData cq) /\ dc_header cq = dc_header cP /\ Forall2 rg_same (dc_groups cP) (dc_groups cq) /\
    rows_segs b (pos + 40) (dc_rows cP) = Ok (rP, xP) /\ rows_segs b (pos + 40) (dc_rows cq) = Ok (rq, xq) /\
    (forall x v, val rq x v -> val rP x v) /\ (forall x v, val rP x v -> val rq x v \/ val lW x v).
Lemma same_flags gs gs' : Forall2 rg_same gs gs' -> forall s, slot_flag gs' s = slot_flag gs s.
Proof.
  intros H s. unfold slot_flag. pose proof (Forall2_len _ _ _ H) as HL. destruct (getN gs (s / 16)) as [g|] eqn:E.
  - destruct (getN_lt_Some gs' (s / 16)) as [g' E']; [apply getN_Some_lt in E; lia|]. rewrite E'. destruct (Forall2_get _ _ _ H _ _ _ E E') as (-> & _). reflexivity.
  - destruct (getN gs' (s / 16)) as [g'|] eqn:E'; [|reflexivity]. apply getN_Some_lt in E'. apply getN_None in E. lia.
Qed.
Lemma rg_same_refl g : rg_same g g. Proof. now repeat split. Qed.
Lemma grown_skip b Q db ps h c g : alloc_ok b Q db ps h c -> snug (mk_page h (PData c)) -> getN (grown_groups h (dc_groups c)) (c_rows (ph_counts h) / 16) = Some g -> rgroup_ok g /\ rg_skip g = 16 - c_rows (ph_counts h) mod 16.
Proof.
  intros HOK HS HG. pose proof HOK as ((_ & _ & _ & _ & _ & P6 & P7 & _) & _). set (nr := c_rows (ph_counts h)) in *. unfold grown_groups in HG. fold nr in HG. unfold num_row_groups in P6. fold nr in P6. destruct (nr mod 16 =? 0) eqn:E.
  - rewrite getN_app in HG. replace (nr / 16 <? len (dc_groups c)) with false in HG by lia. replace (nr / 16 - len (dc_groups c)) with 0 in HG by lia. injection HG as <-. split; [|replace (nr mod 16) with 0 by lia; reflexivity].
    unfold rgroup_ok. cbn. repeat split; try easy. repeat constructor.
  - split; [rewrite Forall_forall in P7; apply P7, in_getN; now exists (nr / 16)|]. rewrite (snug_skip b Q db ps h c _ g HOK HS HG). fold nr. lia.
Qed.
Lemma step_snug b Q db ps h c n r p' : alloc_ok b Q db ps h c -> op_ok b Q (ph_type h) (n, Some r) -> snug (mk_page h (PData c)) -> step b n (Some r) (mk_page h (PData c)) = Ok p' -> snug p'.
Proof.
  intros HOK HO HS HE. destruct (step_shape b Q db ps h c n r HOK HO) as (g & EG & EQ). rewrite EQ in HE. destruct (ph_free h <? up4 n + 6); [injection HE as <-; exact HS|]. destruct ((8191 <=? c_rows (ph_counts h)) || (2047 <=? c_valid (ph_counts h)))%bool; [easy|]. injection HE as <-.
  unfold snug in *. cbn [pg_content pg_header dc_groups grown_hdr phdr_upd ph_counts c_rows] in *. set (nr := c_rows (ph_counts h)) in *. cbv zeta in *. set (gs := grown_groups h (dc_groups c)) in *.
  assert (forall s, slot_flag (set_nth (N.to_nat (nr / 16)) (grown_group h g) gs) s = (slot_flag (dc_groups c) s || (s =? nr))%bool) as HSF.
  { intro s. assert (slot_flag gs s = slot_flag (dc_groups c) s) as <-. { unfold gs, grown_groups. destruct (c_rows (ph_counts h) mod 16 =? 0); [apply slots_app|reflexivity]. }
    unfold slot_flag. pose proof (getN_Some_lt _ _ _ EG) as HL. rewrite getN_set_nth by easy. destruct (s / 16 =? nr / 16) eqn:E.
    - replace (s / 16) with (nr / 16) by lia. rewrite EG. unfold grown_group. cbn [mark_present insert_offset rg_flags]. fold nr. rewrite N.lor_spec. f_equal.
      destruct (N.lt_ge_cases (s mod 16) (nr mod 16)) as [X|X]; [rewrite N.shiftl_spec_low by easy; lia|]. rewrite N.shiftl_spec_high' by lia. destruct (N.eq_dec (s mod 16) (nr mod 16)) as [Y|Y]; [rewrite Y, N.sub_diag; replace (s =? nr) with true by lia; reflexivity|].
      rewrite (N.bits_above_log2 1) by (change (N.log2 1) with 0; lia). lia.
    - replace (s =? nr) with false by lia. now rewrite orb_false_r. }
  intros k HK. rewrite HSF. destruct (N.lt_ge_cases (16 * k + 15) nr) as [X|X].
  - specialize (HS k ltac:(lia)). replace (N.min (16 * k + 15) (nr + 1 - 1)) with (16 * k + 15) by lia. replace (N.min (16 * k + 15) (nr - 1)) with (16 * k + 15) in HS by lia. now rewrite HS.
  - replace (N.min (16 * k + 15) (nr + 1 - 1)) with nr by lia. rewrite N.eqb_refl. apply orb_true_r.
Qed.
Lemma twin_step b db ps pos lW P q n r q' : can_grow b db ps P -> can_grow b db ps q -> snug P -> twin b ps pos lW P q -> op_fine b (ph_type (pg_header P)) (n, Some r) -> step b n (Some r) q = Ok q' ->
  exists P', step b n (Some r) P = Ok P' /\ twin b ps pos lW P' q' /\ snug P'.
Proof.
  intros (h0 & c0 & E0 & HP) (h1 & c1 & E1 & HQ) HS (h & cP & cq & rP & xP & rq & xq & -> & -> & T1 & T2 & T3 & T4 & T5 & T6) [HO HRW] HE. injection E0 as <- <-. injection E1 as <- <-. cbn [pg_header snd] in HO, HRW.
  destruct (step_shape b _ db ps h cP n r HP HO) as (g & G1 & G2). destruct (step_shape b _ db ps h cq n r HQ HO) as (g' & G1' & G2'). rewrite G2' in HE. rewrite G2.
  assert (forall P', step b n (Some r) (mk_page h (PData cP)) = Ok P' -> snug P') as HSN by (intros P' HX; now apply (step_snug b dstr_good db ps h cP n r)). rewrite G2 in HSN.
  destruct (ph_free h <? up4 n + 6); [injection HE as <-; eexists; split; [reflexivity|]; split; [|now apply HSN]; now exists h, cP, cq, rP, xP, rq, xq|].
  destruct ((8191 <=? c_rows (ph_counts h)) || (2047 <=? c_valid (ph_counts h)))%bool; [easy|]. injection HE as <-. eexists. split; [reflexivity|]. split; [|now apply HSN].
  apply writes_segs in HRW as (l0 & r0 & p0 & ER). destruct HO as [_ HI]. cbn [fst snd] in HI. assert (row_ok dstr_good r) as HRO by apply HI.
  destruct (row_segs_move b _ r 0 l0 r0 p0 (pos + 40 + ph_used h) HRO ER) as [(l2 & p2 & ER2) _].
  assert (rows_segs b (pos + 40) [(ph_used h, r)] = Ok (l2, [(ph_used h, r0)])) as ER3. { cbn [rows_segs]. rewrite ER2. cbn [res_bind]. now rewrite app_nil_r. }
  exists (grown_hdr h n), (mk_dcontent (dc_header cP) (set_nth (N.to_nat (c_rows (ph_counts h) / 16)) (grown_group h g) (grown_groups h (dc_groups cP))) (dc_rows cP ++ [(ph_used h, r)])),
    (mk_dcontent (dc_header cq) (set_nth (N.to_nat (c_rows (ph_counts h) / 16)) (grown_group h g') (grown_groups h (dc_groups cq))) (dc_rows cq ++ [(ph_used h, r)])), (rP ++ l2), (xP ++ [(ph_used h, r0)]), (rq ++ l2), (xq ++ [(ph_used h, r0)]).
  cbn [dc_header dc_groups dc_rows]. repeat (split; [easy|]). split.
  - assert (Forall2 rg_same (grown_groups h (dc_groups cP)) (grown_groups h (dc_groups cq))) as HGG. { unfold grown_groups. destruct (c_rows (ph_counts h) mod 16 =? 0); [|easy]. apply Forall2_app; [easy|]. constructor; [apply rg_same_refl|constructor]. }
    apply Forall2_set; [|exact HGG]. destruct (grown_skip b _ db ps h cP g HP HS G1) as [K1 K2]. apply (grown_same h g g' K1); [|exact K2]. exact (Forall2_get _ _ _ HGG _ _ _ G1 G1').
  - split; [now apply rows_segs_app|]. split; [now apply rows_segs_app|]. split; intros x v HV; apply val_app in HV; rewrite val_app; destruct HV as [HV|HV]; auto.
    destruct (T6 x v HV); auto.
Qed.

(** ** The page that the changes would give without any save *)
Definition edit_page (b : build) (e : edit1) (p : page) : res page := match e with EdRow n r => step b n (Some r) p | EdLabel n t => Ok (relabel n t p) end.
Fixpoint edits_page (b : build) (es : list edit1) (p : page) : res page := match es with [] => Ok p | e :: es => do! p1 <- edit_page b e p; edits_page b es p1 end.
Lemma edits_page_app b : forall es es' p, edits_page b (es ++ es') p = (do! p1 <- edits_page b es p; edits_page b es' p1).
Proof. induction es as [|e es IH]; intros es' p; [reflexivity|]. cbn [app edits_page]. destruct (edit_page b e p); cbn [res_bind]; [apply IH|reflexivity|reflexivity]. Qed.
Definition vir (b : build) (db : dbtype) (ps pos : N) (lW : list seg) (P : page) : Prop :=
  can_grow b db ps P /\ snug P /\ exists lP, page_pieces b ps pos P lP /\ forall x, cov lW x -> cov lP x.
Lemma cov_app l l' x : cov (l ++ l') x <-> cov l x \/ cov l' x.
Proof.
  unfold cov. split.
  - intros [v H]. apply val_app in H as [H|H]; eauto.
  - intros [[v H]|[v H]]; exists v; apply val_app; auto.
Qed.
Lemma cov_one p bs bs' l x : len bs = len bs' -> cov ((p, bs) :: l) x -> cov [(p, bs')] x \/ cov l x.
Proof.
  intros HL [v H]. apply val_cons in H as [[H1 H2]|H]; [left|right; now exists v]. cbn [fst snd] in *. apply getN_Some_lt in H2. destruct (getN_lt_Some bs' (x - p)) as [w E]; [lia|]. exists w. apply val_cons. left. now split.
Qed.
Lemma step_vir b db ps pos lW P n r P' : vir b db ps pos lW P -> op_fine b (ph_type (pg_header P)) (n, Some r) -> step b n (Some r) P = Ok P' -> vir b db ps pos lW P'.
Proof.
  intros ((h & c & -> & HOK) & HS & lP & [xP HP] & HC) [HO HRW] HE. cbn [pg_header pg_content snd] in *. pose proof (step_snug b _ db ps h c n r P' HOK HO HS HE) as HS'.
  destruct (step_ok b dstr_good db ps h c n (Some r) P' HOK HO HE) as (h' & c' & new & EP & HOK' & _). split; [now exists h', c'|]. split; [exact HS'|].
  destruct (step_shape b _ db ps h c n r HOK HO) as (g & _ & EQ). rewrite EQ in HE. destruct (ph_free h <? up4 n + 6); [injection HE as <-; exists lP; split; [now exists xP|exact HC]|].
  destruct ((8191 <=? c_rows (ph_counts h)) || (2047 <=? c_valid (ph_counts h)))%bool; [easy|]. injection HE as HE. rewrite EP in HE. injection HE as EH EC. subst P'. cbn [pg_content pg_header].
  unfold dpage_segs in HP. pose proof HOK as ((P1 & P2 & P3 & _ & P5 & P6 & P7 & _) & _). pose proof HOK' as ((_ & _ & P3' & _ & P5' & _) & _).
  destruct (hdr_bytes_ok db b h c P3 P5) as (hb & dh & _ & L1 & _ & L2 & E3). destruct (hdr_bytes_ok db b h' c' P3' P5') as (hb' & dh' & _ & L1' & _ & L2' & E3'). rewrite E3 in HP. cbn [res_bind] in HP.
  destruct (rows_segs b (pos + 40) (dc_rows c)) as [[lr xr]| |] eqn:ER; try easy. cbn [res_bind] in HP. injection HP as <- <-.
  apply writes_segs in HRW as (l0 & r0 & p0 & ERR). destruct HO as [_ HI]. cbn [fst snd] in HI. assert (row_ok dstr_good r) as HRO by apply HI.
  destruct (row_segs_move b _ r 0 l0 r0 p0 (pos + 40 + ph_used h) HRO ERR) as [(l2 & p2 & ER2) _].
  assert (rows_segs b (pos + 40) [(ph_used h, r)] = Ok (l2, [(ph_used h, r0)])) as ER3. { cbn [rows_segs]. rewrite ER2. cbn [res_bind]. now rewrite app_nil_r. }
  exists ((pos, hb' ++ dh') :: groups_segs (dc_groups c') (pos + ps) ++ lr ++ l2). split.
  - exists (xr ++ [(ph_used h, r0)]). cbn [pg_header pg_content]. unfold dpage_segs. rewrite E3'. cbn [res_bind]. replace (dc_rows c') with (dc_rows c ++ [(ph_used h, r)]) by (now rewrite <- EC). rewrite (rows_segs_app b _ _ _ _ _ _ _ ER ER3). reflexivity.
  - intros x HX. apply HC in HX. apply (cov_one pos _ (hb' ++ dh')) in HX; [|rewrite !len_app; lia]. change ((pos, hb' ++ dh') :: ?l) with ([(pos, hb' ++ dh')] ++ l). rewrite !cov_app. destruct HX as [HX|HX]; [now left|]. right. apply cov_app in HX as [HX|HX]; [left|right; now left].
    apply (snug_cov b dstr_good db ps (pos + ps) h c h' c'); try easy; [lia|]. rewrite <- EH. cbn [grown_hdr phdr_upd ph_counts c_rows]. lia.
Qed.
Lemma relabel_vir b db ps pos lW P n t : vir b db ps pos lW P -> is_u32 n -> ptype_ok db t -> t = ph_type (pg_header P) \/ c_valid (ph_counts (pg_header P)) = 0 -> vir b db ps pos lW (relabel n t P).
Proof.
  intros ((h & c & -> & HOK) & HS & lP & [xP HP] & HC) HN HT HE. unfold relabel. cbn [pg_header pg_content] in *.
  set (h' := mk_phdr (ph_index h) t n (ph_unknown1 h) (ph_unknown2 h) (ph_counts h) (ph_flags h) (ph_free h) (ph_used h)) in *.
  assert (alloc_ok b dstr_good db ps h' c) as HOK'.
  { destruct HOK as (HD & A2 & A3 & A4 & A5 & A6). split; [|now repeat (split; [easy|])]. destruct HD as (P1 & P2 & P3 & P4 & P5 & P6 & P7 & P8 & P9 & P10 & P11). unfold dpage_ok.
    assert (phdr_ok db h') as P3'. { destruct P3 as (A & B & C & D). unfold phdr_ok, h'. cbn [ph_index ph_type ph_next ph_unknown1 ph_unknown2 ph_counts ph_flags ph_free ph_used]. now repeat (split; [easy|]). }
    do 10 (split; [easy|]). destruct HE as [->|HE]; [easy|]. rewrite HE in P9. destruct (dc_rows c) as [|x l]; [constructor|rewrite len_cons in P9; lia]. }
  split; [now exists h', c|]. split; [exact HS|]. cbn [pg_header pg_content]. pose proof HOK as ((_ & _ & P3 & _ & P5 & _) & _). pose proof HOK' as ((_ & _ & P3' & _) & _). unfold dpage_segs in HP.
  destruct (hdr_bytes_ok db b h c P3 P5) as (hb & dh & _ & L1 & _ & L2 & E3). destruct (hdr_bytes_ok db b h' c P3' P5) as (hb' & dh' & _ & L1' & _ & L2' & E3'). rewrite E3 in HP. cbn [res_bind] in HP.
  destruct (rows_segs b (pos + 40) (dc_rows c)) as [[lr xr]| |] eqn:ER; try easy. cbn [res_bind] in HP. injection HP as <- <-.
  exists ((pos, hb' ++ dh') :: groups_segs (dc_groups c) (pos + ps) ++ lr). split.
  - exists xr. cbn [pg_header pg_content]. unfold dpage_segs. rewrite E3', ER. reflexivity.
  - intros x HX. apply HC in HX. apply (cov_one pos _ (hb' ++ dh')) in HX; [|rewrite !len_app; lia]. change ((pos, hb' ++ dh') :: ?l) with ([(pos, hb' ++ dh')] ++ l). now rewrite cov_app.
Qed.
Lemma twin_relabel b ps pos lW P q n t : twin b ps pos lW P q -> twin b ps pos lW (relabel n t P) (relabel n t q).
Proof.
  intros (h & cP & cq & rP & xP & rq & xq & -> & -> & T). unfold relabel. cbn [pg_header pg_content]. eexists _, cP, cq, rP, xP, rq, xq. split; [reflexivity|]. split; [reflexivity|]. exact T.
Qed.
Lemma twin_run b db ps pos lW : forall ops P q q', vir b db ps pos lW P -> can_grow b db ps q -> twin b ps pos lW P q -> Forall (op_fine b (ph_type (pg_header P))) ops ->
  forallb (fun op => match snd op with Some _ => true | None => false end) ops = true -> run b ops q = Ok q' ->
  exists P', edits_page b (flat_map op_edit ops) P = Ok P' /\ vir b db ps pos lW P' /\ can_grow b db ps q' /\ twin b ps pos lW P' q'.
Proof.
  induction ops as [|[n r] ops IH]; intros P q q' HV HQ HT HO HS HR; cbn [run] in HR; [injection HR as <-; exists P; now repeat (split; [easy|])|]. cbn [forallb snd] in HS. destruct r as [r|]; [|easy]. inversion HO as [|? ? O1 O2]; subst.
  destruct (step b n (Some r) q) as [q1| |] eqn:E; try easy. cbn [res_bind] in HR. pose proof HV as (HGP & HSN & _).
  destruct (twin_step b db ps pos lW P q n r q1 HGP HQ HSN HT O1 E) as (P1 & E1 & T1 & _). pose proof (step_vir b db ps pos lW P n r P1 HV O1 E1) as V1.
  assert (can_grow b db ps q1 /\ ph_type (pg_header P1) = ph_type (pg_header P)) as [Q1 TY].
  { destruct HT as (h & cP & cq & rP & xP & rq & xq & -> & -> & _). destruct HQ as (h0 & c0 & E0 & HQ). injection E0 as <- <-. destruct HGP as (h0 & c0 & E0 & HGP). injection E0 as <- <-. destruct O1 as [O1 _]. cbn [pg_header] in O1.
    destruct (step_ok b dstr_good db ps h cq n (Some r) q1 HQ O1 E) as (hq & c' & new & -> & HOK' & _). split; [now exists hq, c'|].
    destruct (step_ok b dstr_good db ps h cP n (Some r) P1 HGP O1 E1) as (h2 & c2 & new2 & -> & _ & (h3 & c3 & h4 & c4 & E3 & E4 & (_ & ET & _) & _) & _). injection E3 as <- <-. injection E4 as <- <-. cbn [pg_header]. congruence. }
  destruct (IH P1 q1 q' V1 Q1 T1) as (P' & X1 & X2 & X3 & X4); try easy; [now rewrite TY|]. exists P'. split; [|now repeat (split; [easy|])]. cbn [flat_map op_edit snd fst app edits_page edit_page]. rewrite E1. cbn [res_bind]. exact X1.
Qed.

(** ** The page in the file *)
(** The bytes of [P] are in the file; those of the page that [P] does not determine are as in [io0]. *)
Definition fills (io0 io : list N) (ps i : N) (l : list seg) : Prop :=
  (forall x v, val l x v -> getN io x = Some v) /\ (forall x, i * ps <= x -> x < (i + 1) * ps -> ~ cov l x -> getN io x = getN io0 x).
Lemma cov_dec l x : cov l x \/ ~ cov l x.
Proof.
  induction l as [|s l IH]; [right; intros [v H]; now apply val_nil in H|]. destruct IH as [[v H]|H]; [left; exists v; apply val_cons; now right|].
  destruct (fst s <=? x) eqn:E; [destruct (getN (snd s) (x - fst s)) as [v|] eqn:E2|].
  - left. exists v. apply val_cons. left. split; [lia|exact E2].
  - right. intros [v HV]. apply val_cons in HV as [[_ HV]|HV]; [congruence|]. apply H. now exists v.
  - right. intros [v HV]. apply val_cons in HV as [[HV _]|HV]; [lia|]. apply H. now exists v.
Qed.
Lemma fills_fun io0 io io' ps i l x : fills io0 io ps i l -> fills io0 io' ps i l -> i * ps <= x -> x < (i + 1) * ps -> getN io x = getN io' x.
Proof.
  intros [A1 A2] [B1 B2] X1 X2. destruct (cov_dec l x) as [[v H]|H]; [now rewrite (A1 x v H), (B1 x v H)|]. now rewrite (A2 x X1 X2 H), (B2 x X1 X2 H).
Qed.
Lemma fills_segs io0 io ps i l : Forall (fun s => snd s <> []) l -> fills io0 io ps i l -> segs_in io l.
Proof.
  intros HN [H _]. unfold segs_in. rewrite Forall_forall in *. intros s Hs. pose proof (HN s Hs) as NE. assert (forall k, k < len (snd s) -> getN io (fst s + k) = getN (snd s) k) as HG.
  { intros k HK. destruct (getN_lt_Some (snd s) k HK) as [v E]. rewrite E. apply H. exists s. split; [exact Hs|]. split; [lia|]. now replace (fst s + k - fst s) with k by lia. }
  apply has_get. split; [|exact HG]. destruct (snd s) as [|y bs] eqn:E; [easy|]. assert (getN io (fst s + 0) = Some y) as HY by (rewrite HG; [reflexivity|rewrite len_cons; lia]). apply getN_Some_lt in HY. lia.
Qed.
Definition tracks (b : build) (db : dbtype) (io0 : list N) (ps i : N) (P : page) (d : database) : Prop :=
  exists lW, fills io0 (db_io d) ps i lW /\ vir b db ps (i * ps) lW P /\
    (forall q, getN (db_pages d) (i - 1) = Some (Some q) -> can_grow b db ps q /\ twin b ps (i * ps) lW P q) /\
    (getN (db_pages d) (i - 1) = Some None -> page_pieces b ps (i * ps) P lW).
Lemma same_tracks b db io0 ps i P d d' : db_io d' = db_io d -> getN (db_pages d') (i - 1) = getN (db_pages d) (i - 1) -> tracks b db io0 ps i P d -> tracks b db io0 ps i P d'.
Proof. intros E1 E2 (lW & H). exists lW. now rewrite E1, E2. Qed.
(** The segments of two such pages *)
Lemma twin_pieces b ps pos lW P q lP lq : twin b ps pos lW P q -> page_pieces b ps pos P lP -> page_pieces b ps pos q lq -> (forall x v, val lq x v -> val lP x v) /\ (forall x v, val lP x v -> val lq x v \/ val lW x v).
Proof.
  intros (h & cP & cq & rP & xP & rq & xq & -> & -> & T1 & T2 & T3 & T4 & T5 & T6) [x1 H1] [x2 H2]. cbn [pg_header pg_content] in *. unfold dpage_segs in *. rewrite T3 in H1. rewrite T4 in H2.
  assert (hdr_bytes b h cq = hdr_bytes b h cP) as EH by (unfold hdr_bytes; now rewrite T1). rewrite EH in H2. destruct (hdr_bytes b h cP) as [hb| |]; try easy. cbn [res_bind] in *. injection H1 as <- _. injection H2 as <- _.
  rewrite (groups_same_segs _ _ T2). split; intros x v HV; apply val_cons in HV; rewrite val_cons in *; destruct HV as [HV|HV]; auto; apply val_app in HV; rewrite val_app; destruct HV as [HV|HV]; auto.
  destruct (T6 x v HV); auto.
Qed.
Lemma flush_tracks b io0 i P d d' : 1 <= i -> savable b d -> flush b d = DOk d' -> let ps := dh_page_size (db_header d) in (i + 1) * ps <= len (db_io d) -> i <= len (db_pages d) ->
  tracks b (db_kind d) io0 ps i P d -> tracks b (db_kind d) io0 ps i P d' /\ exists lP, page_pieces b ps (i * ps) P lP /\ fills io0 (db_io d') ps i lP.
Proof.
  intros H1 HS HF ps HFL HIL (lW & HW & HV & HP & HN). pose proof (savable_inside b d HS) as HIN. destruct HS as (S0 & _ & S2 & S3 & _). pose proof HF as HF'.
  apply flush_pieces in HF as (_ & _ & D3 & ls & HLS & EIO & HPC); try easy. fold ps in EIO, HPC. cbv zeta in HPC. pose proof HV as (HGP & _ & lP & HLP & HCC).
  pose proof (grow_consistent _ _ _ _ HGP) as HCP. destruct (consistent_pieces _ _ _ _ _ _ HCP HLP) as [HDJ HNE].
  (* Bytes of the page that the save writes *)
  assert (forall x, i * ps <= x -> x < (i + 1) * ps -> (forall q lq v, getN (db_pages d) (i - 1) = Some (Some q) -> page_pieces b ps (i * ps) q lq -> val lq x v -> getN (db_io d) x = Some v) -> getN (db_io d') x = getN (db_io d) x) as HSAME.
  { intros x X1 X2 HX. assert (x < len (db_io d)) as XL by lia. rewrite EIO. apply write_segs_same; [exact XL|]. intros s [<-|Hs] HC.
    - exfalso. unfold seg_end in HC. cbn [fst snd] in HC. rewrite len_header_page in HC by easy. fold ps in HC. nia.
    - apply in_concat in Hs as (l0 & HL0 & Hs). apply in_getN in HL0 as (k & HK). apply HPC in HK as [HWI HK]. unfold segs_within in HWI. rewrite Forall_forall in HWI. pose proof (HWI s Hs) as HWS.
      assert (k = i - 1) as -> by nia. destruct (getN (db_pages d) (i - 1)) as [[q|]|] eqn:EQ; [|subst l0; easy|subst l0; easy]. replace ((i - 1 + 1) * ps) with (i * ps) in HK by (f_equal; lia).
      unfold seg_end in HC. destruct (getN_lt_Some (snd s) (x - fst s)) as [v E]; [lia|]. rewrite E. symmetry. apply (HX q l0 v eq_refl HK). exists s. split; [exact Hs|]. split; [lia|exact E]. }
  assert (forall x v, val lP x v -> i * ps <= x /\ x < (i + 1) * ps) as HRG.
  { intros x v HX. destruct HGP as (h & c & -> & HOK). destruct HLP as [x0 HE]. cbn [pg_header pg_content] in HE. pose proof (alloc_ok_tidy _ _ _ _ _ _ HOK) as HTI. destruct (page_tidy_segs b _ _ ps _ h c lP x0 (proj1 HOK) HTI HE) as [_ HWI]. apply (val_range _ _ _ _ _ HWI) in HX. lia. }
  assert (fills io0 (db_io d') ps i lP) as HF2.
  { destruct (getN_lt_Some (db_pages d) (i - 1)) as [[q|] EQ]; [lia| |].
    - destruct (flush_segs_in b d d' (i - 1) q S2 HIN HF' EQ) as (lq & Q1 & Q2 & Q3). fold ps in Q1, Q2. replace (i - 1 + 1) with i in Q1, Q2 by lia. destruct (HP q EQ) as [HGQ HT]. destruct (consistent_pieces _ _ _ _ _ _ (grow_consistent _ _ _ _ HGQ) Q1) as [C1 C2]. specialize (Q3 C1 C2).
      destruct (twin_pieces b ps (i * ps) lW P q lP lq HT HLP Q1) as [T1 T2]. destruct HW as [W1 W2]. split.
      + intros x v HX. destruct (T2 x v HX) as [HX2|HX2]; [now apply (val_in _ lq)|]. destruct (HRG x v HX) as [X1 X2]. rewrite HSAME; [now apply W1|exact X1|exact X2|]. intros q' lq' v' EQ' HPQ HV'. assert (q' = q) as -> by congruence. assert (lq' = lq) as -> by (now apply (pieces_fun b ps (i * ps) q)).
        assert (v' = v) as -> by (apply (val_fun lP x); auto). now apply W1.
      + intros x X1 X2 HX. assert (~ cov lW x) as HX2 by (intro HC; apply HX, HCC, HC). rewrite <- (W2 x X1 X2 HX2). apply HSAME; [exact X1|exact X2|]. intros q' lq' v' EQ' HPQ HV'. exfalso. assert (q' = q) as -> by congruence. assert (lq' = lq) as -> by (now apply (pieces_fun b ps (i * ps) q)).
        apply HX. exists v'. now apply T1.
    - assert (lW = lP) as -> by (apply (pieces_fun b ps (i * ps) P); [exact HLP|now apply HN]). destruct HW as [W1 W2]. split.
      + intros x v HX. destruct (HRG x v HX) as [X1 X2]. rewrite HSAME; [now apply W1|exact X1|exact X2|]. intros q' lq' v' EQ'. congruence.
      + intros x X1 X2 HX. rewrite <- (W2 x X1 X2 HX). apply HSAME; [exact X1|exact X2|]. intros q' lq' v' EQ'. congruence. }
  split; [|now exists lP]. exists lP. split; [exact HF2|]. split; [split; [apply HV|split; [apply HV|exists lP; split; [exact HLP|easy]]]|]. rewrite D3. split; [|intros _; exact HLP].
  intros q EQ. destruct (HP q EQ) as [HGQ (h & cP & cq & rP & xP & rq & xq & E1 & E2 & T1 & T2 & T3 & T4 & T5 & T6)]. split; [exact HGQ|]. exists h, cP, cq, rP, xP, rq, xq. do 7 (split; [easy|]). intros x v HX. right.
  subst P. destruct HLP as [x0 HE]. cbn [pg_header pg_content] in HE. unfold dpage_segs in HE. rewrite T3 in HE. destruct (hdr_bytes b h cP); try easy. cbn [res_bind] in HE. injection HE as <- _. apply val_cons. right. apply val_app. now right.
Qed.
(** Loading page [j] and putting [p'] in its place. *)
Lemma put_tracks b db io0 ps i P P' d j d1 p p' : 1 <= i -> 1 <= j -> (j <> i -> P' = P) -> load_page b d j = (d1, DOk p) ->
  (j = i -> exists lW, fills io0 (db_io d) ps i lW /\ vir b db ps (i * ps) lW P' /\ can_grow b db ps p' /\ twin b ps (i * ps) lW P' p') -> tracks b db io0 ps i P d -> tracks b db io0 ps i P' (set_page d1 j p').
Proof.
  intros H1 H2 HPP HL HN HT. apply load_effect in HL as [(D1 & D2 & D3 & D4 & D5) _]; [|easy]. assert (in_memory d1 j p) as HM by (split; [easy|]; rewrite D5, N.eqb_refl; easy).
  assert (getN (db_pages (set_page d1 j p')) (i - 1) = if i - 1 =? j - 1 then Some (Some p') else getN (db_pages d) (i - 1)) as EG. { rewrite (getN_set_page d1 j p p' (i - 1)) by easy. rewrite D5. now destruct (i - 1 =? j - 1). }
  destruct (N.eq_dec j i) as [->|NE].
  - destruct (HN eq_refl) as (lW & A1 & A2 & A3 & A4). exists lW. rewrite EG, N.eqb_refl. change (db_io (set_page d1 i p')) with (db_io d1). rewrite D1. split; [exact A1|]. split; [exact A2|]. split; [|easy]. intros q [= <-]. now split.
  - rewrite (HPP NE). apply (same_tracks b db io0 ps i P d); [change (db_io (set_page d1 j p')) with (db_io d1); exact D1| |exact HT]. rewrite EG. now replace (i - 1 =? j - 1) with false by lia.
Qed.
Lemma load_tracks b io0 i P d d1 p : let ps := dh_page_size (db_header d) in i < 2 ^ 32 -> ps < 2 ^ 32 -> bytes_ok (db_io d) -> 1 <= i -> tracks b (db_kind d) io0 ps i P d -> load_page b d i = (d1, DOk p) ->
  exists lW, fills io0 (db_io d) ps i lW /\ vir b (db_kind d) ps (i * ps) lW P /\ can_grow b (db_kind d) ps p /\ twin b ps (i * ps) lW P p.
Proof.
  intros ps HI32 HPS HBY H1 (lW & HW & HV & HP & HN) HL'. exists lW. split; [exact HW|]. split; [exact HV|]. unfold load_page in HL'. rewrite wsub_ok in HL' by lia. destruct (i - 1 <? len (db_pages d)); [|easy]. unfold load_entry in HL'.
  destruct (getN (db_pages d) (i - 1)) as [[q|]|] eqn:EG; [injection HL' as <- <-; now apply HP| |easy].
  replace (read_page b d i) with (match rd_page b (rd_dstr b) ps (db_kind d) (db_io d) (i * ps) with Ok (p, _) => DOk p | Err e => DErr (DParse e) | Panic => DPanic end) in HL' by (symmetry; now apply read_page_eq).
  destruct (rd_page b (rd_dstr b) ps (db_kind d) (db_io d) (i * ps)) as [[q z]| |] eqn:ER; try easy. injection HL' as <- <-. specialize (HN eq_refl).
  destruct HV as (HGP & _). pose proof (grow_consistent _ _ _ _ HGP) as HC. destruct (consistent_pieces _ _ _ _ _ _ HC HN) as [_ HNE]. pose proof (fills_segs _ _ _ _ _ HNE HW) as HSI. destruct HGP as (h & c & -> & HOK). destruct HN as [rows' HE]. destruct HC as [HO HTI]. cbn [pg_content pg_header] in *.
  destruct (reread_dpage b (db_kind d) ps (i * ps) h c lW rows' (db_io d) q z HO HTI HBY HE HSI ER) as (c' & EQ & _ & _ & HOK'). split; [exists h, c'; split; [exact EQ|now apply HOK']|].
  destruct (dpage_wr b (rd_dstr b) dstr_good (db_kind d) ps h c (db_io d) (i * ps) lW rows') as (q' & R' & (gs & -> & HG)); try easy; [apply dstr_good_wr|destruct HTI as [HTI _]; lia|]. rewrite ER in R'. injection R' as -> _.
  unfold dpage_segs in HE. destruct (hdr_bytes b h c) as [hb| |]; try easy. cbn [res_bind] in HE. destruct (rows_segs b (i * ps + 40) (dc_rows c)) as [[lr rows2]| |] eqn:ERS; try easy. cbn [res_bind] in HE. injection HE as EL <-.
  destruct HO as (_ & _ & _ & _ & _ & _ & _ & _ & _ & _ & P11). destruct (rows_vals b dstr_good (i * ps + 40) (dc_rows c) lr rows2) as (lr' & ER' & HVV); [|exact ERS|]. { eapply Forall_impl; [|exact P11]. now intros ? [? _]. }
  exists h, c, (mk_dcontent (dc_header c) gs rows2), lr, rows2, lr', rows2. cbn [dc_header dc_groups dc_rows]. do 7 (split; [easy|]). intros x v HX. right. rewrite <- EL. apply val_cons. right. apply val_app. now right.
Qed.

(** ** Programs *)
Lemma flush_len b d d' : savable b d -> flush b d = DOk d' -> len (db_io d) <= len (db_io d').
Proof.
  intros HS HF. pose proof (savable_inside b d HS) as HIN. destruct HS as (_ & _ & S2 & _). apply flush_pieces in HF as (_ & _ & _ & ls & _ & EIO & _); try easy. rewrite EIO. apply write_segs_len.
Qed.
Section programs.
Context (b : build) (io0 : list N) (ps i : N) (H1 : 1 <= i).
Lemma does_tracks d a d' G T A P : dh_page_size (db_header d) = ps -> i < dh_next (db_header d) -> stores b d G A -> act_ok b (db_header d) G T A a -> does b d a d' ->
  ~ In i (act_reworks T a) -> (i + 1) * ps <= len (db_io d) -> tracks b (db_kind d) io0 ps i P d ->
  (i + 1) * ps <= len (db_io d') /\ exists P', edits_page b (act_edits i a) P = Ok P' /\ tracks b (db_kind d) io0 ps i P' d'.
Proof.
  intros EPS HIN HS HA HD HN HLEN HC.
  assert (forall j s, A j = Some s -> 1 <= j /\ j < 2 ^ 32 /\ ps < 2 ^ 32) as HR.
  { intros j s E. destruct (proj2 (proj2 HS) j s E) as (q & HPO & _). pose proof (DbFacts.page_of_range b d j q HPO) as HX. destruct HS as ((_ & S1 & _ & S3 & _) & _). destruct S1 as (X1 & _ & X3 & _). unfold is_u32 in *. rewrite EPS in X1. lia. }
  assert (forall s d1 p, A i = Some s -> load_page b d i = (d1, DOk p) -> exists lW, fills io0 (db_io d) ps i lW /\ vir b (db_kind d) ps (i * ps) lW P /\ can_grow b (db_kind d) ps p /\ twin b ps (i * ps) lW P p) as HF.
  { intros s d1 p E HL. destruct (HR i s E) as (R1 & R2 & R3). subst ps. apply (load_tracks b io0 i P d d1 p); try easy. destruct HS as ((S0 & _) & _). exact S0. }
  assert (forall j d1 p p', 1 <= j -> load_page b d j = (d1, DOk p) -> db_io (set_page d1 j p') = db_io d) as HIO.
  { intros j d1 p p' HJ HL. apply load_effect in HL as [(D1 & _) _]; [|easy]. exact D1. }
  destruct HD as [j ops d1 p p' HL HX|j f d1 p HL|k f d1 HL|j m d1 p p' HL HX|d1 HFL]; cbn [act_ok act_reworks act_edits] in *.
  - destruct HA as (s & E & HA). cbn [fst snd] in E, HA. destruct (HR j s E) as (R1 & R2 & R3). split; [now rewrite (HIO j d1 p p')|]. destruct (j =? i) eqn:EJ.
    + assert (j = i) as -> by lia. destruct (HF s d1 p E HL) as (lW & F1 & F2 & F3 & F4).
      destruct HA as [[_ ->]|[HG HA]]; [cbn [run] in HX; injection HX as <-; exists P; split; [reflexivity|]; apply (put_tracks b _ io0 ps i P P d i d1 p); try easy; intros _; now exists lW|].
      destruct (stores_sound b d G A i s p HS E) as (_ & _ & _ & (ET & _)); [now rewrite HG|now apply (load_of b d i d1)|].
      destruct (twin_run b (db_kind d) ps (i * ps) lW ops P p p' F2 F3 F4) as (P' & X1 & X2 & X3 & X4); [| |exact HX|].
      { assert (ph_type (pg_header P) = sh_type s) as ->; [|exact HA]. destruct F4 as (h & cP & cq & rP & xP & rq & xq & -> & -> & _). exact ET. }
      { destruct (forallb (fun op => match snd op with Some _ => true | None => false end) ops); [reflexivity|]. exfalso. apply HN. now left. }
      exists P'. split; [exact X1|]. apply (put_tracks b _ io0 ps i P P' d i d1 p); try easy. intros _. now exists lW.
    + exists P. split; [reflexivity|]. apply (put_tracks b _ io0 ps i P P d j d1 p); try easy. intros ->. lia.
  - destruct HA as (s & E & _). destruct (HR j s E) as (R1 & _). split; [now rewrite (HIO j d1 p)|]. exists P. split; [reflexivity|]. apply (put_tracks b _ io0 ps i P P d j d1 p); try easy. intros ->. exfalso. apply HN. now left.
  - destruct (assign_all_other b k f G T d A i H1 HS HA HN) as [X1 X2]. rewrite HL in X1, X2. cbn [fst] in X1, X2. split; [now rewrite X1|]. exists P. split; [reflexivity|]. now apply (same_tracks b _ io0 ps i P d d1).
  - destruct HA as [[s E] HG]. destruct (HR j s E) as (R1 & _). split; [now rewrite (HIO j d1 p)|]. exists P. split; [reflexivity|]. apply (put_tracks b _ io0 ps i P P d j d1 p); try easy. intros ->. exfalso. apply HN. now left.
  - pose proof HS as [HSV _]. split; [pose proof (flush_len b d d1 HSV HFL); lia|]. exists P. split; [reflexivity|]. subst ps. apply (flush_tracks b io0 i P d d1); try easy. destruct HSV as (_ & _ & _ & S3 & _). lia.
Qed.
Lemma acts_tracks : forall d as' d', acts b d as' d' -> forall G T A P, dh_page_size (db_header d) = ps -> i < dh_next (db_header d) -> stores b d G A -> acts_ok b (db_header d) G T A as' ->
  ~ In i (flat_map (act_reworks T) as') -> (i + 1) * ps <= len (db_io d) -> tracks b (db_kind d) io0 ps i P d ->
  (i + 1) * ps <= len (db_io d') /\ exists P', edits_page b (flat_map (act_edits i) as') P = Ok P' /\ tracks b (db_kind d) io0 ps i P' d'.
Proof.
  intros d as' d' H. induction H as [d|d a d1 as' d2 HD _ IH]; intros G T A P EPS HIN HS HA HN HLEN HC; [split; [easy|]; now exists P|]. cbn [acts_ok] in HA. destruct HA as [A1 A2]. cbn [flat_map] in HN. rewrite in_app_iff in HN.
  destruct (does_stores b d a d1 G T A HS A1 HD) as (S1 & S2 & S3). destruct (does_tracks d a d1 G T A P) as (L1 & P1 & X1 & X2); try easy; [tauto|]. rewrite <- S3 in X2.
  destruct (IH G T (act_work T A a) P1) as (L2 & P2 & Y1 & Y2); try (now rewrite S2); try easy; [tauto|]. split; [exact L2|]. exists P2. rewrite <- S3. split; [|exact Y2]. cbn [flat_map]. rewrite edits_page_app, X1. exact Y1.
Qed.
Lemma performs_tracks d a d' G st P : dh_page_size (db_header d) = ps -> i < dh_next (db_header d) -> stores b d G (snd st) -> db_header d = fst st -> task_ok b (db_kind d) G st a -> performs b d a d' ->
  ~ In i (task_reworks a) -> (i + 1) * ps <= len (db_io d) -> tracks b (db_kind d) io0 ps i P d ->
  (i + 1) * ps <= len (db_io d') /\ exists P', edits_page b (task_edits i a) P = Ok P' /\ tracks b (db_kind d) io0 ps i P' d'.
Proof.
  intros EPS HIN HS HH HA HD HN HLEN HC. destruct HD as [T as' d1 HL|j n t d1 p HL|f]; cbn [task_ok task_reworks task_edits] in *.
  - rewrite <- HH in HA. now apply (acts_tracks d as' d1 HL G T (snd st)).
  - destruct HA as (s & E & HG & HN1 & HT & HTS). destruct (proj2 (proj2 HS) j s E) as (q & HPQ & _). pose proof (DbFacts.page_of_range b d j q HPQ) as HX. assert (1 <= j) as HJ1 by lia.
    split. { apply load_effect in HL as [(D1 & _) _]; [|easy]. change (db_io (set_page d1 j (relabel n t p))) with (db_io d1). now rewrite D1. }
    destruct (j =? i) eqn:EJ.
    + assert (j = i) as -> by lia. assert (page_of b d i p) as HPO by (now apply (load_of b d i d1)). destruct (stores_sound b d G _ i s p HS E HG HPO) as (C1 & C2 & _ & C4). pose proof C4 as (ET & _ & _ & _ & L5).
      pose proof HS as ((S0 & S1 & _ & S3 & _) & _). destruct S1 as (X1 & _ & X3 & _). unfold is_u32 in *. destruct (load_tracks b io0 i P d d1 p) as (lW & F1 & F2 & F3 & F4); try easy; [lia|now rewrite EPS|]. rewrite EPS in F1, F2, F3, F4.
      assert (vir b (db_kind d) ps (i * ps) lW (relabel n t P)) as HV2.
      { apply relabel_vir; try easy. destruct F4 as (h & cP & cq & rP & xP & rq & xq & -> & -> & _). destruct F3 as (h0 & c0 & E0 & ((_ & _ & _ & _ & _ & _ & _ & _ & P9 & _) & _)). injection E0 as <- <-. cbn [pg_header] in *. destruct HTS as [->|HTS]; [left; congruence|right].
        rewrite HTS in L5. cbn [rows_of_page pg_content] in L5. rewrite <- P9. destruct (dc_rows cq) as [|x rows]; [reflexivity|]. cbn [map] in L5. inversion L5. }
      exists (relabel n t P). split; [reflexivity|]. apply (put_tracks b _ io0 ps i P (relabel n t P) d i d1 p); try easy. intros _. exists lW. split; [exact F1|]. split; [exact HV2|]. split; [|now apply twin_relabel].
      destruct (relabel_sound b (db_kind d) ps GGrow n t p s) as (_ & _ & [X _] & _); try (exact X); try easy; rewrite EPS in C1, C2; easy.
    + exists P. split; [reflexivity|]. apply (put_tracks b _ io0 ps i P P d j d1 p); try easy. intros ->. lia.
  - split; [exact HLEN|]. exists P. split; [reflexivity|]. now apply (same_tracks b _ io0 ps i P d).
Qed.
Lemma tasks_tracks : forall d ts d', tasks b d ts d' -> forall G st P, dh_page_size (db_header d) = ps -> i < dh_next (db_header d) -> stores b d G (snd st) -> db_header d = fst st -> tasks_ok b (db_kind d) G st ts ->
  ~ In i (reworked ts) -> (i + 1) * ps <= len (db_io d) -> tracks b (db_kind d) io0 ps i P d ->
  (i + 1) * ps <= len (db_io d') /\ exists P', edits_page b (edits i ts) P = Ok P' /\ tracks b (db_kind d) io0 ps i P' d'.
Proof.
  intros d ts d' H. induction H as [d|d a d1 ts d2 HD _ IH]; intros G st P EPS HIN HS HH HA HN HLEN HC; [split; [easy|]; now exists P|]. cbn [tasks_ok] in HA. destruct HA as [A1 A2]. unfold reworked in HN. cbn [flat_map] in HN. rewrite in_app_iff in HN.
  destruct (performs_stores b d a d1 G st HS HH A1 HD) as (S1 & S2 & S3). destruct (task_next b (db_kind d) G st a A1) as [N1 N2]. destruct (performs_tracks d a d1 G st P) as (L1 & P1 & X1 & X2); try easy; [tauto|]. rewrite <- S3 in X2.
  destruct (IH G (task_work st a) P1) as (L2 & P2 & Y1 & Y2); [now rewrite S2, N2, <- HH|now rewrite S2, N1, <- HH|exact S1|exact S2|now rewrite S3|unfold reworked; tauto|exact L1|exact X2|].
  split; [exact L2|]. exists P2. rewrite <- S3. split; [|exact Y2]. unfold edits. cbn [flat_map]. rewrite edits_page_app, X1. exact Y1.
Qed.
Definition filed_as (k : dbtype) (P : page) (io : list N) : Prop := can_grow b k ps P /\ snug P /\ exists l, page_pieces b ps (i * ps) P l /\ fills io0 io ps i l.
Lemma jobs_tracks k : forall io ls io', jobs b k io ls io' -> forall d G st P, db_open io k = DOk d -> dh_page_size (db_header d) = ps -> i < dh_next (db_header d) -> stores b d G (snd st) -> db_header d = fst st -> tasks_ok b k G st (concat ls) ->
  ~ In i (reworked (concat ls)) -> (i + 1) * ps <= len io -> filed_as k P io -> exists P', edits_page b (edits i (concat ls)) P = Ok P' /\ filed_as k P' io'.
Proof.
  intros io ls io' H. induction H as [io|io ts io1 ls io2 HS1 _ IH]; intros d G st P HO EPS HIN HS HH HA HN HLEN HFD; [now exists P|]. cbn [concat] in HA, HN. apply tasks_ok_app in HA as [A1 A2].
  unfold reworked in HN. rewrite flat_map_app, in_app_iff in HN. pose proof (open_kind io k d HO) as HK. pose proof (open_none io k d HO) as [EIO HNONE].
  destruct (job_stores b k io ts io1 d G st HO HS HH A1 HS1) as (d1 & O1 & O2 & O3). destruct (tasks_next b k G ts st A1) as [N1 N2].
  assert (tracks b k io0 ps i P d) as HC. { destruct HFD as (F1 & F2 & l & F3 & F4). exists l. rewrite EIO. split; [exact F4|]. split; [split; [exact F1|split; [exact F2|exists l; now split]]|]. split; [intros q HQ; now apply HNONE in HQ|easy]. }
  destruct HS1 as (d0 & d2 & d3 & E0 & HE & HF & <-). rewrite HO in E0. injection E0 as <-. rewrite <- HK in A1.
  destruct (tasks_tracks d ts d2 HE G st P) as (L2 & P2 & X1 & X2); try easy; [unfold reworked; tauto|now rewrite EIO|now rewrite HK|]. rewrite HK in X2.
  destruct (tasks_stores b d ts d2 HE G st HS HH A1) as (S1 & S2 & S3). assert (dh_page_size (db_header d2) = ps) as EP2 by (now rewrite S2, N2, <- HH). assert (dh_next (db_header d2) = dh_next (db_header d)) as EN2 by (now rewrite S2, N1, <- HH).
  destruct (flush_tracks b io0 i P2 d2 d3 H1 (proj1 S1) HF) as [HT3 HFD3].
  { now rewrite EP2. } { destruct S1 as ((_ & _ & _ & S4 & _) & _). lia. } { now rewrite EP2, S3, HK. }
  rewrite EP2 in HFD3. destruct HT3 as (_ & _ & (V1 & V2 & _) & _). rewrite EP2, S3, HK in V1.
  destruct (IH d1 G (tasks_work st ts) P2) as (P3 & Y1 & Y2); try easy; [now rewrite O2, N2, <- HH|rewrite O2, N1, <- HH; exact HIN|unfold reworked; tauto|pose proof (flush_len b d2 d3 (proj1 S1) HF); lia|].
  exists P3. split; [|exact Y2]. unfold edits. cbn [concat]. rewrite flat_map_app. fold (edits i ts). rewrite edits_page_app, X1. exact Y1.
Qed.
End programs.
