(** * Rows: the statements of the properties *)
From Coq Require Import NArith ZArith List Bool Lia.
From Coq Require Import ZifyBool ZifyNat ZifyN.
From Verif Require Import Base BaseFacts Segs Utf UtfFacts Str StrFacts Schema SchemaFacts StrGood Oa OaFacts OaSpec Rows RowFacts.
Import ListNotations.
Open Scope N_scope.
Ltac Zify.zify_post_hook ::= Z.div_mod_to_equations.

(** [r'] is [r] with its offsets made explicit: given offsets stay, computed ones are those of the layout. *)
Definition made_explicit (b : build) (r r' : row) : Prop :=
  match r with
  | RRow k vs (Some c) =>
    exists o, r' = RRow k vs (Some (mk_oarr (Some o) (oa_items c))) /\
    match oa_offs c, row_oarr k with
    | Some o0, _ => o = o0
    | None, Some (off, _) => exists hi, of_size o = row_osize vs /\
        laid b (strings_from off (row_osize vs) (oa_items c)) (oa_items c) (of_list o) hi
    | None, None => False
    end
  | _ => r' = r
  end.

Lemma row_segs_explicit b r pos l r' p : row_segs b r pos = Ok (l, r', p) -> made_explicit b r r'.
Proof.
  destruct r as [k vs oc|]; cbn [row_segs made_explicit]; [|now intros [= <- <- <-]].
  destruct (enc_fields b (row_fields k) vs) as [bs| |]; [|easy|easy]. cbn [res_bind].
  destruct (row_oarr k) as [[off n]|], oc as [c|]; try easy; [|now intros [= <- <- <-]].
  unfold oarr_segs. destruct (calculate_base (pos + len bs) off) as [base| |]; [|easy|easy]. cbn [res_bind].
  destruct (oa_offs c) as [o|].
  - destruct (osize_eqb (of_size o) (row_osize vs)); [|easy]. destruct (items_segs b base (oa_items c) (of_list o)); [|easy|easy].
    cbn [res_bind]. intros [= <- <- <-]. exists o. easy.
  - destruct (oarr_enc b off (row_osize vs) (oa_items c)) as [[o x]| |] eqn:E; [|easy|easy]. cbn [res_bind]. intros [= <- <- <-].
    unfold oarr_enc in E. destruct (calc_body b _ (oa_items c)) as [[os body]| |] eqn:EC; [|easy|easy]. cbn [res_bind] in E.
    destruct (offs_new (row_osize vs) os) as [o2| |] eqn:EO; [|easy|easy]. cbn [res_bind] in E. injection E as <- <-.
    apply offs_new_inv in EO as [-> _]. eexists. split; [reflexivity|]. eexists. split; [reflexivity|]. cbn [of_list].
    now apply (calc_laid _ _ _ _ body).
Qed.

Lemma items_segs_nonempty b base : forall items os l, items_segs b base items os = Ok l -> Forall (fun s => snd s <> []) l.
Proof.
  induction items as [|d items IH]; intros os l H; [injection H as <-; constructor|].
  destruct os as [|o os]; [injection H as <-; constructor|]. cbn [items_segs] in H.
  destruct (dstr_enc b d) as [x| |] eqn:E; [|easy|easy]. cbn [res_bind] in H.
  destruct (items_segs b base items os) as [l2| |] eqn:E2; [|easy|easy]. injection H as <-. constructor; [|now apply (IH os)].
  cbn. now apply dstr_enc_nonempty in E.
Qed.
Lemma row_segs_nonempty b Q r pos l r' p :
  row_ok Q r -> row_segs b r pos = Ok (l, r', p) -> Forall (fun s => snd s <> []) l.
Proof.
  destruct r as [k vs oc|]; cbn [row_segs row_ok]; [|intros _ [= <- <- <-]; constructor]. intros [HF HO].
  destruct (enc_fields b (row_fields k) vs) as [bs| |] eqn:E; [|easy|easy]. cbn [res_bind].
  assert (bs <> []) as HN.
  { assert (fields_size (row_fields k) <= len bs) as HL by (now apply (fields_enc_len_ge b Q _ vs)).
    intros ->. rewrite len_nil in HL. now destruct k. }
  destruct (row_oarr k) as [[off n]|], oc as [c|]; try easy; [|intros [= <- <- <-]; now constructor].
  unfold oarr_segs. destruct (calculate_base (pos + len bs) off) as [base| |]; [|easy|easy]. cbn [res_bind].
  destruct (oa_offs c) as [o|].
  - destruct (osize_eqb (of_size o) (row_osize vs)); [|easy].
    destruct (items_segs b base (oa_items c) (of_list o)) eqn:EI; [|easy|easy]. cbn [res_bind]. intros [= <- <- <-].
    constructor; [easy|]. constructor; [apply offs_enc_nonempty|]. now apply items_segs_nonempty in EI.
  - destruct (oarr_enc b off (row_osize vs) (oa_items c)) as [[o x]| |] eqn:EO; [|easy|easy]. cbn [res_bind]. intros [= <- <- <-].
    constructor; [easy|]. constructor; [|constructor]. cbn [snd]. unfold oarr_enc in EO.
    destruct (calc_body b _ (oa_items c)) as [[os body]| |]; [|easy|easy]. cbn [res_bind] in EO.
    destruct (offs_new (row_osize vs) os) as [o2| |]; [|easy|easy]. cbn [res_bind] in EO. injection EO as <- <-.
    pose proof (offs_enc_nonempty o2). now destruct (offs_enc o2).
Qed.

Lemma row_write_read b r pt buf pos buf' p l r0 p0 :
  row_ok dstr_good r -> row_ptype_ok pt r -> row_segs b r pos = Ok (l, r0, p0) -> segs_disj l ->
  row_write b r (buf, pos) = Ok (buf', p) ->
  exists r' p', rd_row (rd_dstr b) pt buf' pos = Ok (r', p') /\ made_explicit b r r'.
Proof.
  intros HR HT HE HD HW. rewrite row_write_segs, HE in HW. cbn [res_bind] in HW. injection HW as <- <-.
  destruct (row_wr b (rd_dstr b) dstr_good r (write_segs buf l) pos l r0 p0 pt) as (p' & E); try easy.
  - apply dstr_good_wr.
  - apply write_segs_in; [easy|]. eapply Forall_impl; [|eapply row_segs_nonempty; eassumption]. intros s Hs. now left.
  - exists r0, p'. split; [easy|]. eapply row_segs_explicit; eassumption.
Qed.
Lemma row_calc_write_read b r pt buf pos buf' p :
  row_ok dstr_good r -> row_calc r -> row_ptype_ok pt r -> row_write b r (buf, pos) = Ok (buf', p) ->
  exists r' p', rd_row (rd_dstr b) pt buf' pos = Ok (r', p') /\ made_explicit b r r'.
Proof.
  intros HR HC HT HW. pose proof HW as HW0. rewrite row_write_segs in HW.
  destruct (row_segs b r pos) as [[[l r0] p0]| |] eqn:E; [|easy|easy].
  destruct (row_enc_segs b dstr_good r pos l r0 p0) as (bs & _ & _ & _ & HD & _); try easy.
  eapply row_write_read; eassumption.
Qed.
Lemma row_read_write_back b pt buf pos r p :
  bytes_ok buf -> len buf < 2 ^ 64 - 1 -> pos <= len buf -> rd_row (rd_dstr_strict b) pt buf pos = Ok (r, p) ->
  rd_row (rd_dstr b) pt buf pos = Ok (r, p) /\ exists p', row_write b r (buf, pos) = Ok (buf, p').
Proof.
  intros HB HL HP H. split; [now apply (row_mono _ _ _ _ _ _ (rd_dstr_strict_le b buf))|].
  apply (row_rw b _ dstr_parsed) in H as (_ & _ & l & p' & E & HI); try easy; [|now apply rd_dstr_strict_rw].
  exists p'. rewrite row_write_segs, E. cbn [res_bind]. now rewrite write_segs_id.
Qed.

(** ** Size *)
Lemma row_write_enc b r buf pos buf' p :
  row_ok dstr_inv r -> row_calc r -> row_write b r (buf, pos) = Ok (buf', p) ->
  exists bs, row_enc b r = Ok bs /\ buf' = write_at buf pos bs.
Proof.
  intros HR HC HW. rewrite row_write_segs in HW. destruct (row_segs b r pos) as [[[l r0] p0]| |] eqn:E; [|easy|easy].
  destruct (row_enc_segs b dstr_inv r pos l r0 p0) as (bs & EE & HB & _); try easy. cbn [res_bind] in HW. injection HW as <- <-.
  exists bs. now rewrite HB.
Qed.
(** The extent of what is written: the bytes changed lie in [pos, pos+n) and appending makes the file [n] bytes longer. *)
Definition written_extent (b : build) (r : row) (n : N) : Prop :=
  forall buf pos buf' p, row_write b r (buf, pos) = Ok (buf', p) ->
    (pos = len buf -> len buf' = len buf + n) /\
    (forall i, i < pos \/ pos + n <= i -> i < len buf -> getN buf' i = getN buf i).
Lemma write_at_extent buf pos bs :
  (pos = len buf -> len (write_at buf pos bs) = len buf + len bs) /\
  (forall i, i < pos \/ pos + len bs <= i -> i < len buf -> getN (write_at buf pos bs) i = getN buf i).
Proof.
  destruct bs as [|x bs]; [split; [intros _; rewrite len_nil; cbn; lia|easy]|]. split.
  - intros ->. rewrite len_write_at by easy. lia.
  - intros i Hi Hl. rewrite getN_write_at by easy. destruct (i <? pos) eqn:E; [now replace (i <? len buf) with true by lia|].
    now replace (i <? pos + len (x :: bs)) with false by lia.
Qed.
Lemma row_extent b r bs : row_ok dstr_inv r -> row_calc r -> row_enc b r = Ok bs -> written_extent b r (len bs).
Proof.
  intros HR HC HE buf pos buf' p HW. destruct (row_write_enc b r buf pos buf' p) as (bs' & E & ->); try easy.
  assert (bs' = bs) as -> by congruence. apply write_at_extent.
Qed.
Lemma row_heap_extent b r buf buf' p :
  row_ok dstr_inv r -> row_calc r -> r <> RUnknown -> row_write b r (buf, len buf) = Ok (buf', p) -> len buf' < len buf + 65536 ->
  exists n, row_heap b r = Ok n /\ len buf' = len buf + n /\ written_extent b r n.
Proof.
  intros HR HC HU HW HL. destruct (row_write_enc b r buf (len buf) buf' p) as (bs & E & ->); try easy.
  destruct (write_at_extent buf (len buf) bs) as [HX _]. specialize (HX eq_refl). exists (len bs). split; [|split].
  - apply row_heap_exact; try easy. lia.
  - easy.
  - now apply row_extent.
Qed.

(** With overflow checks the prediction is never wrong. *)
Lemma wadd_debug w x y r : wadd Debug w x y = Ok r -> r = x + y.
Proof. unfold wadd, ovf. destruct (x + y <? 2 ^ w); [now intros [= <-]|easy]. Qed.
Lemma dstr_heap_debug d x h : dstr_inv d -> dstr_enc Debug d = Ok x -> dstr_heap Debug d = Ok h -> h = len x.
Proof.
  intros HI HE HH. pose proof (dstr_enc_debug_bound d x HI HE). rewrite (dstr_heap_exact Debug d x) in HH by easy. congruence.
Qed.
Lemma oarr_heap_calc_debug off : forall items k os body h,
  off mod 4 = 0 -> Forall dstr_inv items -> calc_body Debug (off + k) items = Ok (os, body) -> Forall (fun o => o < 65536) os ->
  oarr_heap_items Debug true items k = Ok h -> h = k + len body.
Proof.
  induction items as [|d items IH]; intros k os body h HO HI HC HF HH.
  - injection HC as <- <-. cbn [oarr_heap_items] in HH. injection HH as <-. now rewrite len_nil, N.add_0_r.
  - cbn [calc_body] in HC. inversion HI as [|? ? I1 I2]; subst. destruct (dstr_enc Debug d) as [x| |] eqn:E; [|easy|easy].
    cbn [res_bind] in HC. rewrite aligned_shift in HC by easy. pose proof (aligned_ge k d) as HA.
    cbn [oarr_heap_items] in HH. set (al := aligned_offset k (dstr_align d)) in *. rewrite <- N.add_assoc in HC.
    destruct (calc_body Debug (off + (al + len x)) items) as [[os' y]| |] eqn:E2; [|easy|easy].
    cbn [res_bind] in HC. injection HC as <- <-. inversion HF as [|? ? F1 F2]; subst. rewrite N.mod_small in HH by lia.
    destruct (dstr_heap Debug d) as [h1| |] eqn:EH; [|easy|easy]. cbn [res_bind] in HH. apply (dstr_heap_debug d x) in EH; try easy. subst h1.
    destruct (wadd Debug 16 al (len x)) as [t| |] eqn:EW; [|easy|easy]. cbn [res_bind] in HH. apply wadd_debug in EW. subst t.
    apply (IH _ _ _ _ HO I2 E2 F2) in HH. rewrite !len_app, len_zeros. lia.
Qed.
Lemma sum_debug_step acc n rest h : sum_u16 Debug acc (Ok n :: rest) = Ok h -> sum_u16 Debug (acc + n) rest = Ok h.
Proof.
  cbn [sum_u16 res_bind]. destruct (wadd Debug 16 acc n) as [a| |] eqn:E; [|easy|easy]. cbn [res_bind]. apply wadd_debug in E. now subst.
Qed.
Lemma fields_heap_debug fs : forall vs pre bs acc oc rest h,
  fields_ok dstr_inv fs vs -> forallb size_ok fs = true -> enc_fields Debug fs vs = Ok bs ->
  sum_u16 Debug acc (map (hterm_size Debug (pre ++ vs) oc) (field_hterms (length pre) fs) ++ rest) = Ok h ->
  sum_u16 Debug (acc + len bs) rest = Ok h.
Proof.
  induction fs as [|f fs IH]; intros vs pre bs acc oc rest h HV HK HE HH; inversion HV as [|? v ? vs' H1 H2]; subst.
  - cbn in HE. injection HE as <-. cbn in HH. now rewrite len_nil, N.add_0_r.
  - cbn [forallb] in HK. apply andb_true_iff in HK as [K1 K2]. cbn [enc_fields] in HE.
    destruct (enc_field Debug f v) as [x| |] eqn:E1; [|easy|easy]. cbn [res_bind] in HE.
    destruct (enc_fields Debug fs vs') as [y| |] eqn:E2; [|easy|easy]. cbn [res_bind] in HE. injection HE as <-. rewrite len_app in *.
    cbn [field_hterms map app] in HH.
    assert (exists h0, hterm_size Debug (pre ++ v :: vs') oc (field_hterm (length pre) f) = Ok h0) as [h0 HT].
    { destruct (hterm_size Debug (pre ++ v :: vs') oc (field_hterm (length pre) f)) eqn:EQ; [now eexists|easy|easy]. }
    assert (h0 = len x) as ->.
    { destruct f as [e n|e n m|e n codes|e n codes|n|].
      6:{ destruct v; try easy. cbn in E1, H1. cbn [field_hterm hterm_size] in HT. rewrite nth_error_app_at in HT.
          now apply (dstr_heap_debug d x). }
      all: match goal with HT : hterm_size _ _ _ (field_hterm _ ?f) = _ |- _ =>
             assert (len x = field_size f) as HX;
             [destruct v; try easy; cbn [enc_field] in E1; injection E1 as <-; cbn [field_size]; rewrite ?len_int_enc; try easy;
              cbn [field_ok] in H1; now destruct H1
             |rewrite HX; cbn [size_ok] in K1; unfold field_hterm in HT;
              destruct (field_size f =? 1) eqn:S1; [apply N.eqb_eq in S1; rewrite S1; cbn in HT; congruence|];
              destruct (field_size f =? 2) eqn:S2; [apply N.eqb_eq in S2; rewrite S2; cbn in HT; congruence|];
              destruct (field_size f =? 4) eqn:S4; [apply N.eqb_eq in S4; rewrite S4; cbn in HT; congruence|]; now cbn in K1] end. }
    rewrite HT in HH. apply sum_debug_step in HH.
    replace (pre ++ v :: vs') with ((pre ++ [v]) ++ vs') in HH by now rewrite <- app_assoc.
    replace (S (length pre)) with (length (pre ++ [v])) in HH by (rewrite app_length; cbn; lia).
    apply (IH vs' (pre ++ [v]) y (acc + len x) oc rest h H2 K2 E2) in HH. rewrite <- HH. f_equal. lia.
Qed.
Lemma row_heap_debug r bs h :
  row_ok dstr_inv r -> row_calc r -> row_enc Debug r = Ok bs -> row_heap Debug r = Ok h -> h = len bs.
Proof.
  intros HR HC HE HH. destruct r as [k vs oc|]; [|easy]. cbn [row_ok row_calc row_enc row_heap] in *. destruct HR as [HF HO].
  destruct (enc_fields Debug (row_fields k) vs) as [x| |] eqn:E; [|easy|easy]. cbn [res_bind] in HE.
  rewrite row_hterms_fields, map_app in HH. apply (fields_heap_debug (row_fields k) vs [] x 0 oc) in HH; try easy; [|apply row_size_ok].
  destruct (row_oarr k) as [[off n]|] eqn:EK, oc as [c|]; try easy.
  - destruct (oarr_enc Debug off (row_osize vs) (oa_items c)) as [[o y]| |] eqn:EO; [|easy|easy]. cbn [res_bind] in HE. injection HE as <-.
    cbn [map hterm_size] in HH. destruct (oarr_heap Debug (row_osize vs) c) as [hc| |] eqn:EC; [|easy|easy].
    apply sum_debug_step in HH. cbn [sum_u16] in HH. injection HH as <-.
    destruct c as [oo items]. cbn [oa_offs oa_items] in *. subst oo. unfold oarr_heap in EC. cbn [oa_offs oa_items] in EC.
    unfold oarr_enc in EO. destruct (calc_body Debug _ items) as [[os body]| |] eqn:EB; [|easy|easy]. cbn [res_bind] in EO.
    destruct (offs_new (row_osize vs) os) as [o2| |] eqn:E2; [|easy|easy]. cbn [res_bind] in EO. injection EO as -> <-.
    apply offs_new_inv in E2 as [-> HB]. destruct (row_oarr_fields _ _ _ EK) as (_ & _ & H4). destruct HO as (HN & HI & _). cbn in HI, HN.
    assert ((len items + 1) * os_bytes (row_osize vs) < 65536) as HS.
    { unfold len. rewrite HN. clear - EK. destruct k; try easy; injection EK as <- <-; now destruct (row_osize vs). }
    rewrite N.mod_small in EC by easy.
    apply (oarr_heap_calc_debug off items _ os body) in EC; try easy.
    2:{ eapply Forall_impl; [|exact HB]. intros o Ho. cbv beta in Ho. destruct (row_osize vs); cbn in Ho; lia. }
    rewrite !len_app, len_offs_enc. cbn [of_list of_size]. rewrite (calc_body_len _ _ _ _ _ EB). lia.
  - injection HE as <-. cbn [map sum_u16] in HH. injection HH as <-. lia.
Qed.
Lemma row_heap_debug_extent r h :
  row_ok dstr_inv r -> row_calc r -> row_heap Debug r = Ok h -> written_extent Debug r h.
Proof.
  intros HR HC HH buf pos buf' p HW. destruct (row_write_enc Debug r buf pos buf' p) as (bs & E & ->); try easy.
  rewrite (row_heap_debug r bs h) by easy. apply write_at_extent.
Qed.
