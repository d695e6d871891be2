(** * Facts about rows *)
From Coq Require Import NArith ZArith List Bool Lia.
From Coq Require Import ZifyBool ZifyNat ZifyN.
From Verif Require Import Base BaseFacts Segs Utf UtfFacts Str StrFacts Schema SchemaFacts StrGood Oa OaFacts OaSpec Rows.
Import ListNotations.
Open Scope N_scope.
Ltac Zify.zify_post_hook ::= Z.div_mod_to_equations.

Lemma row_fields_wf k : fields_wfb (row_fields k) = true.
Proof. now destruct k. Qed.
Lemma row_oarr_fields k off n : row_oarr k = Some (off, n) ->
  no_str (row_fields k) = true /\ fields_size (row_fields k) = off /\ off mod 4 = 0.
Proof. destruct k; intros [= <- <-]; repeat split. Qed.

(** The values that exist in Rust; strings satisfy [Q]. *)
Definition row_ok (Q : dstr -> Prop) (r : row) : Prop :=
  match r with
  | RUnknown => True
  | RRow k vs oc =>
    fields_ok Q (row_fields k) vs /\
    match row_oarr k, oc with
    | None, None => True
    | Some (_, n), Some c => oarr_ok Q (row_osize vs) n c
    | _, _ => False
    end
  end.
Definition row_ptype_ok (pt : ptype) (r : row) : Prop :=
  match pt, r with PT k, RRow k' _ _ => k = k' | PTUnknown _, RUnknown => True | _, _ => False end.

(** The segments a row consists of, the row with explicit offsets, and the final position. *)
Definition row_segs (b : build) (r : row) (pos : N) : res (list seg * row * N) :=
  match r with
  | RUnknown => Ok ([], RUnknown, pos)
  | RRow k vs oc =>
    do! bs <- enc_fields b (row_fields k) vs;
    match row_oarr k, oc with
    | None, None => Ok ([(pos, bs)], r, pos + len bs)
    | Some (off, _), Some c =>
      do! (l, o, p) <- oarr_segs b off (row_osize vs) c (pos + len bs);
      Ok ((pos, bs) :: l, RRow k vs (Some (mk_oarr (Some o) (oa_items c))), p)
    | _, _ => Panic
    end
  end.
Lemma row_write_segs b r buf pos :
  row_write b r (buf, pos) = (do! (l, _, p) <- row_segs b r pos; Ok (write_segs buf l, p)).
Proof.
  destruct r as [k vs oc|]; [|reflexivity]. unfold row_write, row_segs.
  destruct (enc_fields b (row_fields k) vs) as [bs| |]; [|easy|easy]. cbn [res_bind wr_bytes].
  destruct (row_oarr k) as [[off n]|], oc as [c|]; try reflexivity.
  rewrite oarr_write_segs. now destruct (oarr_segs b off (row_osize vs) c (pos + len bs)) as [[[l o] p]| |].
Qed.

Lemma row_wr b rs Q r buf pos l r' p pt :
  str_wr b rs Q buf -> row_ok Q r -> row_ptype_ok pt r -> row_segs b r pos = Ok (l, r', p) -> segs_in buf l ->
  exists p', rd_row rs pt buf pos = Ok (r', p').
Proof.
  intros HS HR HT HE HI. destruct r as [k vs oc|].
  - destruct pt as [k0|]; [|easy]. cbn in HT. subst k0. cbn [row_ok row_segs rd_row] in *. destruct HR as [HF HO].
    destruct (enc_fields b (row_fields k) vs) as [bs| |] eqn:E; [|easy|easy]. cbn [res_bind] in HE.
    destruct (row_oarr k) as [[off n]|] eqn:EK, oc as [c|]; try easy.
    + destruct (oarr_segs b off (row_osize vs) c (pos + len bs)) as [[[l' o] p1]| |] eqn:EO; [|easy|easy].
      cbn [res_bind] in HE. injection HE as <- <- <-. inversion HI as [|? ? I1 I2]; subst. cbn [fst snd] in I1.
      eexists. eapply bind_ok. { eapply fields_wr; try eassumption. apply row_fields_wf. }
      cbv beta. eapply bind_ok. { eapply oarr_wr; eassumption. } reflexivity.
    + injection HE as <- <- <-. inversion HI as [|? ? I1 I2]; subst. cbn [fst snd] in I1.
      eexists. eapply bind_ok. { eapply fields_wr; try eassumption. apply row_fields_wf. } reflexivity.
  - destruct pt; [easy|]. cbn in HE. injection HE as <- <- <-. eexists. reflexivity.
Qed.

Lemma row_rw b rs Q r buf pos p pt :
  bytes_ok buf -> pos <= len buf -> str_rw b rs Q buf -> rd_row rs pt buf pos = Ok (r, p) ->
  row_ok Q r /\ row_ptype_ok pt r /\ exists l p', row_segs b r pos = Ok (l, r, p') /\ segs_in buf l.
Proof.
  intros HB HP HS H. destruct pt as [k|c0]; cbn [rd_row] in H.
  - apply bind_inv in H as (vs & p1 & R & H). apply (fields_rw b rs Q) in R as (HF & bs & E & HH & ->); try easy; [|apply row_fields_wf].
    destruct (row_oarr k) as [[off n]|] eqn:EK.
    + apply bind_inv in H as (c & p2 & R2 & H). apply ret_inv in H as [<- <-].
      apply (oarr_rw b rs Q) in R2 as (HO & -> & HL & l & o & EO & ES & HI); try easy. cbn [row_ok row_ptype_ok row_segs].
      rewrite EK, E. cbn [res_bind]. rewrite ES. cbn [res_bind]. split; [easy|]. split; [easy|].
      exists ((pos, bs) :: l), (pos + len bs - off). destruct c as [oo items]. cbn [oa_offs oa_items] in *. subst oo. split; [easy|]. now constructor.
    + apply ret_inv in H as [<- <-]. cbn [row_ok row_ptype_ok row_segs]. rewrite EK, E. cbn [res_bind]. split; [easy|]. split; [easy|].
      exists [(pos, bs)], (pos + len bs). split; [easy|]. now constructor.
  - apply ret_inv in H as [<- <-]. split; [easy|]. split; [easy|]. exists [], pos. split; [easy|constructor].
Qed.

Lemma row_mono rs1 rs2 pt buf pos r : rs_le rs1 rs2 buf -> rd_row rs1 pt buf pos = Ok r -> rd_row rs2 pt buf pos = Ok r.
Proof.
  intros HS H. destruct pt as [k|c0]; [|easy]. cbn [rd_row] in *. unfold bind in *.
  destruct (rd_fields rs1 (row_fields k) buf pos) as [[vs p]| |] eqn:E; [|easy|easy].
  rewrite (fields_mono _ _ _ _ _ _ HS E). destruct (row_oarr k) as [[off n]|]; [|easy]. unfold bind in *.
  destruct (rd_oarr rs1 off (row_osize vs) n buf p) as [[c p2]| |] eqn:E2; [|easy|easy].
  now rewrite (oarr_mono _ _ _ _ _ _ _ _ HS E2).
Qed.

Lemma row_no_panic rs pt buf : (forall pos, rs buf pos <> Panic) -> forall pos, rd_row rs pt buf pos <> Panic.
Proof.
  intros HS pos. destruct pt as [k|c0]; [|easy]. cbn [rd_row]. unfold bind.
  pose proof (fields_no_panic rs (row_fields k) buf HS pos). destruct (rd_fields rs (row_fields k) buf pos) as [[vs p]| |]; [|easy|easy].
  destruct (row_oarr k) as [[off n]|]; [|easy]. unfold bind.
  pose proof (rd_oarr_no_panic rs buf off (row_osize vs) n p HS). now destruct (rd_oarr rs off (row_osize vs) n buf p) as [[c q]| |].
Qed.

(** ** Rows whose offsets are computed (or that have none) are one block. *)
Definition row_calc (r : row) : Prop := match r with RRow _ _ (Some c) => oa_offs c = None | _ => True end.
Definition row_enc (b : build) (r : row) : res (list N) :=
  match r with
  | RUnknown => Ok []
  | RRow k vs oc =>
    do! bs <- enc_fields b (row_fields k) vs;
    match row_oarr k, oc with
    | None, None => Ok bs
    | Some (off, _), Some c => do! (_, x) <- oarr_enc b off (row_osize vs) (oa_items c); Ok (bs ++ x)
    | _, _ => Panic
    end
  end.
Lemma row_enc_segs b Q r pos l r' p :
  row_ok Q r -> row_calc r -> row_segs b r pos = Ok (l, r', p) ->
  exists bs, row_enc b r = Ok bs /\ (forall buf, write_segs buf l = write_at buf pos bs) /\ segs_within pos (pos + len bs) l /\
    segs_disj l /\ Forall (fun s => snd s <> []) l.
Proof.
  intros HR HC H. destruct r as [k vs oc|].
  - cbn [row_ok row_calc row_segs row_enc] in *. destruct HR as [HF HO].
    destruct (enc_fields b (row_fields k) vs) as [bs| |] eqn:E; [|easy|easy]. cbn [res_bind] in *.
    assert (bs <> []) as HN.
    { assert (fields_size (row_fields k) <= len bs) as HL by (now apply (fields_enc_len_ge b Q _ vs)).
      intros ->. rewrite len_nil in HL. now destruct k. }
    destruct (row_oarr k) as [[off n]|] eqn:EK, oc as [c|]; try easy.
    + unfold oarr_segs, calculate_base in H. destruct (row_oarr_fields _ _ _ EK) as (HNS & HSZ & _).
      pose proof (fields_enc_len b Q _ vs bs HNS HF E) as HLB. replace (off <=? pos + len bs) with true in H by lia.
      cbn [res_bind] in H. rewrite HC in H. destruct (oarr_enc b off (row_osize vs) (oa_items c)) as [[o x]| |] eqn:EO; [|easy|easy].
      cbn [res_bind] in *. injection H as <- <- <-. exists (bs ++ x). split; [easy|]. split; [|split; [|split]].
      * intro buf. cbn [write_segs]. symmetry. apply write_at_app.
      * rewrite len_app. constructor; [|constructor; [|constructor]]; cbn [fst snd]; unfold seg_end; cbn [fst snd]; lia.
      * cbn. split; [|easy]. constructor; [|constructor]. left. unfold seg_end; cbn [fst snd]. lia.
      * constructor; [easy|]. constructor; [|constructor]. cbn [snd]. unfold oarr_enc in EO.
        destruct (calc_body b _ (oa_items c)) as [[os body]| |]; [|easy|easy]. cbn [res_bind] in EO.
        destruct (offs_new (row_osize vs) os) as [o2| |]; [|easy|easy]. cbn [res_bind] in EO. injection EO as <- <-.
        pose proof (offs_enc_nonempty o2). now destruct (offs_enc o2).
    + injection H as <- <- <-. exists bs. split; [easy|]. split; [easy|]. split; [|split; [easy|now constructor]].
      constructor; [|constructor]. cbn [fst]. unfold seg_end; cbn [fst snd]. lia.
  - cbn in H. injection H as <- <- <-. exists []. repeat split; constructor.
Qed.

(** ** Predicted sizes *)
Definition field_hterm (i : nat) (f : field) : hterm :=
  match f with FStr => HStr i | _ => if field_size f =? 1 then H8 else if field_size f =? 2 then H16 else H32 end.
Fixpoint field_hterms (i : nat) (fs : list field) : list hterm :=
  match fs with [] => [] | f :: r => field_hterm i f :: field_hterms (S i) r end.
Lemma row_hterms_fields k :
  row_hterms k = field_hterms 0 (row_fields k) ++ match row_oarr k with Some _ => [HOffs] | None => [] end.
Proof. now destruct k. Qed.
Definition size_ok (f : field) : bool := match f with FStr => true | _ => (field_size f =? 1) || (field_size f =? 2) || (field_size f =? 4) end.
Lemma row_size_ok k : forallb size_ok (row_fields k) = true.
Proof. now destruct k. Qed.

Lemma nth_error_app_at {A} (pre : list A) x post : nth_error (pre ++ x :: post) (length pre) = Some x.
Proof. now rewrite nth_error_app2, Nat.sub_diag by easy. Qed.

Lemma fields_heap b fs : forall vs pre bs acc oc rest,
  fields_ok dstr_inv fs vs -> forallb size_ok fs = true -> enc_fields b fs vs = Ok bs -> acc + len bs < 65536 ->
  sum_u16 b acc (map (hterm_size b (pre ++ vs) oc) (field_hterms (length pre) fs) ++ rest) = sum_u16 b (acc + len bs) rest.
Proof.
  induction fs as [|f fs IH]; intros vs pre bs acc oc rest HV HK HE HL; inversion HV as [|? v ? vs' H1 H2]; subst.
  - cbn in HE. injection HE as <-. cbn. now rewrite N.add_0_r.
  - cbn [forallb] in HK. apply andb_true_iff in HK as [K1 K2]. cbn [enc_fields] in HE.
    destruct (enc_field b f v) as [x| |] eqn:E1; [|easy|easy]. cbn [res_bind] in HE.
    destruct (enc_fields b fs vs') as [y| |] eqn:E2; [|easy|easy]. cbn [res_bind] in HE. injection HE as <-. rewrite len_app in *.
    cbn [field_hterms map app sum_u16].
    assert (hterm_size b (pre ++ v :: vs') oc (field_hterm (length pre) f) = Ok (len x)) as HT.
    { destruct f as [e n|e n m|e n codes|e n codes|n|].
      6:{ destruct v; try easy. cbn in E1, H1. cbn [field_hterm hterm_size]. rewrite nth_error_app_at.
          apply dstr_heap_exact; [easy|easy|lia]. }
      all: match goal with |- hterm_size _ _ _ (field_hterm _ ?f) = _ =>
             assert (len x = field_size f) as HX;
             [destruct v; try easy; cbn [enc_field] in E1; injection E1 as <-; cbn [field_size]; rewrite ?len_int_enc; try easy;
              cbn [field_ok] in H1; now destruct H1
             |rewrite HX; cbn [size_ok] in K1; unfold field_hterm;
              destruct (field_size f =? 1) eqn:S1; [apply N.eqb_eq in S1; now rewrite S1|];
              destruct (field_size f =? 2) eqn:S2; [apply N.eqb_eq in S2; now rewrite S2|];
              destruct (field_size f =? 4) eqn:S4; [apply N.eqb_eq in S4; now rewrite S4|]; now cbn in K1] end. }
    rewrite HT. cbn [res_bind]. rewrite wadd_ok by (change (2 ^ 16) with 65536; lia). cbn [res_bind].
    replace (pre ++ v :: vs') with ((pre ++ [v]) ++ vs') by now rewrite <- app_assoc.
    replace (S (length pre)) with (length (pre ++ [v])) by (rewrite app_length; cbn; lia).
    rewrite (IH vs' (pre ++ [v]) y (acc + len x) oc rest H2 K2 E2) by lia. f_equal. lia.
Qed.

Lemma row_heap_exact b r bs :
  row_ok dstr_inv r -> r <> RUnknown -> row_calc r -> row_enc b r = Ok bs -> len bs < 65536 -> row_heap b r = Ok (len bs).
Proof.
  intros HR HU HC HE HL. destruct r as [k vs oc|]; [|easy]. cbn [row_ok row_calc row_enc row_heap] in *. destruct HR as [HF HO].
  destruct (enc_fields b (row_fields k) vs) as [x| |] eqn:E; [|easy|easy]. cbn [res_bind] in HE.
  rewrite row_hterms_fields, map_app. destruct (row_oarr k) as [[off n]|] eqn:EK, oc as [c|]; try easy.
  - destruct (oarr_enc b off (row_osize vs) (oa_items c)) as [[o y]| |] eqn:EO; [|easy|easy]. cbn [res_bind] in HE. injection HE as <-.
    rewrite len_app in *. rewrite (fields_heap b (row_fields k) vs [] x 0 (Some c)) by first [assumption|apply row_size_ok|lia].
    cbn [map sum_u16 hterm_size]. destruct c as [oo items]. cbn [oa_offs oa_items] in *. subst oo.
    destruct (row_oarr_fields _ _ _ EK) as (_ & _ & H4). destruct HO as (_ & HI & _). cbn in HI.
    rewrite (oarr_heap_exact b off (row_osize vs) items o y) by (easy || lia). cbn [res_bind].
    rewrite wadd_ok by (change (2 ^ 16) with 65536; lia). cbn [res_bind]. f_equal. 
  - injection HE as <-. rewrite (fields_heap b (row_fields k) vs [] x 0 None) by first [assumption|apply row_size_ok|lia].
    cbn [map sum_u16]. f_equal.
Qed.
