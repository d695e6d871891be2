(** * Facts about field lists: write-read and read-write *)
From Coq Require Import NArith ZArith List Bool Lia.
From Coq Require Import ZifyBool ZifyNat ZifyN.
From Verif Require Import Base BaseFacts Utf UtfFacts Str StrFacts Schema.
Import ListNotations.
Open Scope N_scope.

Lemma len_int_enc e n v : len (int_enc e n v) = N.of_nat n.
Proof. destruct e; [apply len_le_enc|apply len_be_enc]. Qed.
Lemma int_enc_ok e n v : bytes_ok (int_enc e n v).
Proof. destruct e; [apply le_enc_ok|apply be_enc_ok]. Qed.
Lemma rd_int_has e n v buf pos :
  v < 256 ^ N.of_nat n -> has buf pos (int_enc e n v) -> rd_int e n buf pos = Ok (v, pos + N.of_nat n).
Proof. destruct e; [apply rd_le_has|apply rd_be_has]. Qed.
Lemma rd_int_inv e n v buf pos pos' :
  n <> 0%nat -> bytes_ok buf -> rd_int e n buf pos = Ok (v, pos') ->
  v < 256 ^ N.of_nat n /\ has buf pos (int_enc e n v) /\ pos' = pos + N.of_nat n.
Proof. destruct e; [apply rd_le_inv|apply rd_be_inv]. Qed.
Lemma rd_int_no_panic e n buf pos : rd_int e n buf pos <> Panic.
Proof. destruct e; [apply rd_le_no_panic|apply rd_be_no_panic]. Qed.

Lemma mem_in c l : mem c l = true <-> In c l.
Proof.
  unfold mem. rewrite existsb_exists. split; [intros (x & H & E); apply N.eqb_eq in E; now subst|].
  intro H. exists c. split; [easy|apply N.eqb_refl].
Qed.

(** A condition on strings that makes them read back wherever they are stored. *)
Definition str_wr (b : build) (rs : parser dstr) (Q : dstr -> Prop) (buf : list N) : Prop :=
  forall d pos bs, Q d -> dstr_enc b d = Ok bs -> has buf pos bs -> rs buf pos = Ok (d, pos + len bs).
(** A reader of strings that returns only values which encode to the bytes that were read. *)
Definition str_rw (b : build) (rs : parser dstr) (Q : dstr -> Prop) (buf : list N) : Prop :=
  forall d pos pos', rs buf pos = Ok (d, pos') ->
    Q d /\ exists bs, dstr_enc b d = Ok bs /\ has buf pos bs /\ pos' = pos + len bs.

Lemma field_wr b rs Q f v buf pos bs :
  field_wfb f = true -> str_wr b rs Q buf -> field_ok Q f v -> enc_field b f v = Ok bs -> has buf pos bs ->
  rd_field rs f buf pos = Ok (v, pos + len bs).
Proof.
  intros HF HS HV HE H. destruct f as [e n|e n m|e n codes|e n codes|n|], v as [x| |c|c|xs|d]; try easy;
    cbn [enc_field field_ok rd_field field_wfb] in *.
  - injection HE as <-. eapply bind_ok; [apply rd_int_has; eassumption|]. rewrite len_int_enc. reflexivity.
  - injection HE as <-. apply andb_true_iff in HF as [_ HF]. eapply bind_ok; [apply rd_int_has; [|eassumption]; lia|].
    cbv beta. rewrite N.eqb_refl. eapply bind_ok; [reflexivity|]. rewrite len_int_enc. reflexivity.
  - injection HE as <-. apply andb_true_iff in HF as [_ HF]. rewrite forallb_forall in HF.
    pose proof (HF c (proj1 (mem_in _ _) HV)). eapply bind_ok; [apply rd_int_has; [|eassumption]; lia|].
    cbv beta. rewrite HV. eapply bind_ok; [reflexivity|]. rewrite len_int_enc. reflexivity.
  - injection HE as <-. apply andb_true_iff in HF as [_ HF]. rewrite forallb_forall in HF.
    pose proof (HF c (proj1 (mem_in _ _) HV)). eapply bind_ok; [apply rd_int_has; [|eassumption]; lia|].
    cbv beta. rewrite HV, len_int_enc. reflexivity.
  - injection HE as <-. destruct HV as [HM HV]. eapply bind_ok; [apply rd_int_has; eassumption|].
    cbv beta. rewrite HM, len_int_enc. reflexivity.
  - injection HE as <-. destruct HV as [<- HV]. eapply bind_ok; [apply rd_bytes_has; eassumption|]. reflexivity.
  - eapply bind_ok; [apply HS; eassumption|]. reflexivity.
Qed.

Lemma fields_wr b rs Q fs : forall vs buf pos bs,
  fields_wfb fs = true -> str_wr b rs Q buf -> fields_ok Q fs vs -> enc_fields b fs vs = Ok bs -> has buf pos bs ->
  rd_fields rs fs buf pos = Ok (vs, pos + len bs).
Proof.
  induction fs as [|f fs IH]; intros vs buf pos bs HF HS HV HE H; inversion HV as [|? v ? vs' H1 H2]; subst.
  - cbn in HE. injection HE as <-. cbn. now rewrite N.add_0_r.
  - cbn [fields_wfb forallb] in HF. apply andb_true_iff in HF as [HF1 HF2]. cbn [enc_fields] in HE.
    destruct (enc_field b f v) as [x| |] eqn:E1; [|easy|easy]. cbn [res_bind] in HE.
    destruct (enc_fields b fs vs') as [y| |] eqn:E2; [|easy|easy]. cbn [res_bind] in HE. injection HE as <-.
    apply has_app in H as [Hx Hy]. cbn [rd_fields]. eapply bind_ok; [eapply field_wr; eassumption|].
    eapply bind_ok; [eapply IH; eassumption|]. rewrite len_app, N.add_assoc. reflexivity.
Qed.

Lemma has_end buf pos bs : has buf pos bs -> has buf (pos + len bs) [].
Proof. intro H. apply has_nil. now apply has_len in H. Qed.

Lemma field_rw b rs Q f v buf pos pos' :
  field_wfb f = true -> bytes_ok buf -> pos <= len buf -> str_rw b rs Q buf -> rd_field rs f buf pos = Ok (v, pos') ->
  field_ok Q f v /\ exists bs, enc_field b f v = Ok bs /\ has buf pos bs /\ pos' = pos + len bs.
Proof.
  intros HF HB HP HS H. destruct f as [e n|e n m|e n codes|e n codes|n|]; cbn [rd_field field_wfb] in *.
  - apply bind_inv in H as (x & p1 & R & H). apply ret_inv in H as [<- <-].
    apply rd_int_inv in R as (HX & HH & ->); [|lia|easy]. split; [easy|]. eexists. split; [reflexivity|].
    rewrite len_int_enc. easy.
  - apply bind_inv in H as (x & p1 & R & H). apply bind_inv in H as (u & p2 & G & H). apply ret_inv in H as [<- <-].
    apply guard_inv in G as [G <-]. apply N.eqb_eq in G; subst x.
    apply rd_int_inv in R as (HX & HH & ->); [|lia|easy]. split; [easy|]. eexists. split; [reflexivity|].
    rewrite len_int_enc. easy.
  - apply bind_inv in H as (x & p1 & R & H). apply bind_inv in H as (u & p2 & G & H). apply ret_inv in H as [<- <-].
    apply guard_inv in G as [G <-].
    apply rd_int_inv in R as (HX & HH & ->); [|lia|easy]. split; [easy|]. eexists. split; [reflexivity|].
    rewrite len_int_enc. easy.
  - apply bind_inv in H as (x & p1 & R & H). apply ret_inv in H as [<- <-].
    apply rd_int_inv in R as (HX & HH & ->); [|lia|easy]. destruct (mem x codes) eqn:G.
    + split; [easy|]. eexists. split; [reflexivity|]. rewrite len_int_enc. easy.
    + split; [easy|]. eexists. split; [reflexivity|]. rewrite len_int_enc. easy.
  - apply bind_inv in H as (x & p1 & R & H). apply ret_inv in H as [<- <-].
    apply rd_bytes_inv in R as (HL & -> & HH).
    assert (has buf pos x) as Hx. { destruct HH as [Z|HH]; [|easy]. rewrite Z in HL. apply len_0_nil in HL. subst x. now apply has_nil. }
    split; [split; [easy|now apply (has_bytes_ok _ _ _ HB Hx)]|]. eexists. split; [reflexivity|]. now rewrite HL.
  - apply bind_inv in H as (x & p1 & R & H). apply ret_inv in H as [<- <-]. apply HS in R as [HQ (bs & HE & HH & ->)].
    split; [easy|]. eexists. split; [exact HE|]. easy.
Qed.

Lemma fields_rw b rs Q fs : forall vs buf pos pos',
  fields_wfb fs = true -> bytes_ok buf -> pos <= len buf -> str_rw b rs Q buf -> rd_fields rs fs buf pos = Ok (vs, pos') ->
  fields_ok Q fs vs /\ exists bs, enc_fields b fs vs = Ok bs /\ has buf pos bs /\ pos' = pos + len bs.
Proof.
  induction fs as [|f fs IH]; intros vs buf pos pos' HF HB HP HS H.
  - cbn in H. injection H as <- <-. split; [constructor|]. exists []. repeat split; [now apply has_nil|].
    rewrite len_nil. lia.
  - cbn [fields_wfb forallb] in HF. apply andb_true_iff in HF as [HF1 HF2]. cbn [rd_fields] in H.
    apply bind_inv in H as (v & p1 & R1 & H). apply bind_inv in H as (vs' & p2 & R2 & H). apply ret_inv in H as [<- <-].
    eapply field_rw in R1 as (K1 & x & E1 & H1 & ->); try eassumption.
    eapply IH in R2 as (K2 & y & E2 & H2 & ->); try eassumption. 2:{ apply has_len in H1. lia. }
    split; [now constructor|]. exists (x ++ y). cbn [enc_fields]. rewrite E1. cbn [res_bind]. rewrite E2.
    repeat split; [now apply has_app|]. rewrite len_app. lia.
Qed.

(** Reading with a stricter reader of strings gives nothing new. *)
Definition rs_le (rs1 rs2 : parser dstr) (buf : list N) : Prop :=
  forall pos r, rs1 buf pos = Ok r -> rs2 buf pos = Ok r.
Lemma field_mono rs1 rs2 f buf pos r :
  rs_le rs1 rs2 buf -> rd_field rs1 f buf pos = Ok r -> rd_field rs2 f buf pos = Ok r.
Proof.
  intros HS H. destruct f; cbn [rd_field] in *; try easy. unfold bind in *.
  destruct (rs1 buf pos) as [[d p]| |] eqn:E; [|easy|easy]. now rewrite (HS _ _ E).
Qed.
Lemma fields_mono rs1 rs2 fs : forall buf pos r,
  rs_le rs1 rs2 buf -> rd_fields rs1 fs buf pos = Ok r -> rd_fields rs2 fs buf pos = Ok r.
Proof.
  induction fs as [|f fs IH]; intros buf pos r HS H; [easy|]. cbn [rd_fields] in *. unfold bind in *.
  destruct (rd_field rs1 f buf pos) as [[v p]| |] eqn:E; [|easy|easy]. rewrite (field_mono _ _ _ _ _ _ HS E).
  destruct (rd_fields rs1 fs buf p) as [[vs p2]| |] eqn:E2; [|easy|easy]. now rewrite (IH _ _ _ HS E2).
Qed.

(** Panics come from strings only. *)
Lemma fields_no_panic rs fs buf :
  (forall pos, rs buf pos <> Panic) -> forall pos, rd_fields rs fs buf pos <> Panic.
Proof.
  intro HS. assert (forall f pos, rd_field rs f buf pos <> Panic) as HF.
  { intros f pos. destruct f as [e n|e n m|e n codes|e n codes|n|]; cbn [rd_field]; unfold bind, guard.
    - pose proof (rd_int_no_panic e n buf pos). now destruct (rd_int e n buf pos) as [[? ?]| |].
    - pose proof (rd_int_no_panic e n buf pos). destruct (rd_int e n buf pos) as [[x ?]| |]; try easy. now destruct (x =? m).
    - pose proof (rd_int_no_panic e n buf pos). destruct (rd_int e n buf pos) as [[x ?]| |]; try easy. now destruct (mem x codes).
    - pose proof (rd_int_no_panic e n buf pos). now destruct (rd_int e n buf pos) as [[? ?]| |].
    - pose proof (rd_bytes_no_panic n buf pos). now destruct (rd_bytes n buf pos) as [[? ?]| |].
    - specialize (HS pos). now destruct (rs buf pos) as [[? ?]| |]. }
  induction fs as [|f fs IH]; intro pos; [easy|]. cbn [rd_fields]. unfold bind.
  specialize (HF f pos). destruct (rd_field rs f buf pos) as [[v p]| |]; try easy.
  specialize (IH p). now destruct (rd_fields rs fs buf p) as [[vs p2]| |].
Qed.

(** Without strings encoding never fails and has the size of the fields. *)
Lemma fields_enc_size b Q fs : forall vs,
  no_str fs = true -> fields_ok Q fs vs -> exists bs, enc_fields b fs vs = Ok bs /\ len bs = fields_size fs.
Proof.
  induction fs as [|f fs IH]; intros vs HN HV; inversion HV as [|? v ? vs' H1 H2]; subst.
  - now exists [].
  - cbn [no_str forallb] in HN. apply andb_true_iff in HN as [HN1 HN2]. destruct (IH _ HN2 H2) as (y & E2 & L2).
    assert (exists x, enc_field b f v = Ok x /\ len x = field_size f) as (x & E1 & L1).
    { destruct f, v; try easy; cbn [enc_field field_size field_ok] in *; eexists; (split; [reflexivity|]);
        try apply len_int_enc. apply H1. }
    exists (x ++ y). cbn [enc_fields]. rewrite E1. cbn [res_bind]. rewrite E2. split; [easy|].
    rewrite len_app, L1, L2. reflexivity.
Qed.
Lemma fields_enc_len b Q fs vs bs :
  no_str fs = true -> fields_ok Q fs vs -> enc_fields b fs vs = Ok bs -> len bs = fields_size fs.
Proof. intros H1 H2 H3. destruct (fields_enc_size b Q fs vs H1 H2) as (x & E & L). congruence. Qed.
Lemma fields_enc_len_ge b Q fs : forall vs bs,
  fields_ok Q fs vs -> enc_fields b fs vs = Ok bs -> fields_size fs <= len bs.
Proof.
  induction fs as [|f fs IH]; intros vs bs HV HE; inversion HV as [|? v ? vs' H1 H2]; subst; [cbn in HE; injection HE as <-; easy|].
  cbn [enc_fields] in HE. destruct (enc_field b f v) as [x| |] eqn:E1; [|easy|easy]. cbn [res_bind] in HE.
  destruct (enc_fields b fs vs') as [y| |] eqn:E2; [|easy|easy]. cbn [res_bind] in HE. injection HE as <-.
  specialize (IH _ _ H2 E2). rewrite len_app. change (fields_size (f :: fs)) with (field_size f + fields_size fs).
  assert (field_size f <= len x); [|lia].
  destruct f, v; try easy; cbn [enc_field field_size field_ok] in *; try (injection E1 as <-; rewrite len_int_enc; lia).
  - injection E1 as <-. lia.
  - lia.
Qed.
Lemma fields_enc_bytes b fs : forall vs bs,
  fields_ok dstr_inv fs vs -> enc_fields b fs vs = Ok bs -> bytes_ok bs.
Proof.
  induction fs as [|f fs IH]; intros vs bs HV HE; inversion HV as [|? v ? vs' H1 H2]; subst; [cbn in HE; injection HE as <-; constructor|].
  cbn [enc_fields] in HE. destruct (enc_field b f v) as [x| |] eqn:E1; [|easy|easy]. cbn [res_bind] in HE.
  destruct (enc_fields b fs vs') as [y| |] eqn:E2; [|easy|easy]. cbn [res_bind] in HE. injection HE as <-.
  apply bytes_ok_app. split; [|now apply (IH vs')].
  destruct f, v; try easy; cbn [enc_field field_ok] in *; try (injection E1 as <-; apply int_enc_ok).
  - injection E1 as <-. apply H1.
  - now apply dstr_enc_bytes in E1.
Qed.
Lemma fields_ok_impl (Q R : dstr -> Prop) fs vs : (forall d, Q d -> R d) -> fields_ok Q fs vs -> fields_ok R fs vs.
Proof.
  intros HI H. induction H as [|f v fs vs H1 H2 IH]; [constructor|]. constructor; [|easy]. destruct f, v; try easy. now apply HI.
Qed.
