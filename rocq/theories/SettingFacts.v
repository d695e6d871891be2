(** * Facts about setting files *)
From Coq Require Import NArith ZArith List Bool Lia String.
From Coq Require Import ZifyBool ZifyNat ZifyN.
From Verif Require Import Base BaseFacts AnlzCodec Crc CrcFacts Setting.
Import ListNotations.
Open Scope N_scope.

(** ** Options *)
Definition enum_wfb (e : senum) : bool :=
  let vs := se_vars e in
  forallb (fun p => forallb (fun q => Bool.eqb (String.eqb (fst p) (fst q)) (snd p =? snd q)) vs) vs
  && forallb (fun p => snd p <? 256) vs
  && existsb (fun p => String.eqb (fst p) (se_default e)) vs.

Lemma all_enums_wf : forallb enum_wfb all_enums = true.
Proof. vm_compute. reflexivity. Qed.

Lemma se_code_in e v c : se_code e v = Some c -> In (v, c) (se_vars e).
Proof.
  unfold se_code. destruct (find _ _) as [[v' c']|] eqn:F; [|easy]. intro H. injection H as ->.
  apply find_some in F as [F G]. cbn in G. apply String.eqb_eq in G as ->. easy.
Qed.
Lemma se_variant_in e v c : se_variant e c = Some v -> In (v, c) (se_vars e).
Proof.
  unfold se_variant. destruct (find _ _) as [[v' c']|] eqn:F; [|easy]. intro H. injection H as ->.
  apply find_some in F as [F G]. cbn in G. apply N.eqb_eq in G as ->. easy.
Qed.

Lemma enum_wf_same e p q : enum_wfb e = true -> In p (se_vars e) -> In q (se_vars e) -> (fst p = fst q <-> snd p = snd q).
Proof.
  intros W P Q. unfold enum_wfb in W. apply andb_true_iff in W as [W _]. apply andb_true_iff in W as [W _].
  rewrite forallb_forall in W. specialize (W p P). rewrite forallb_forall in W. specialize (W q Q).
  apply Bool.eqb_prop in W. rewrite <- String.eqb_eq, <- N.eqb_eq, W. easy.
Qed.
Lemma enum_code_lt e p : enum_wfb e = true -> In p (se_vars e) -> snd p < 256.
Proof.
  intros W P. unfold enum_wfb in W. apply andb_true_iff in W as [W _]. apply andb_true_iff in W as [_ W].
  rewrite forallb_forall in W. specialize (W p P). lia.
Qed.

Lemma in_se_code e v c : enum_wfb e = true -> In (v, c) (se_vars e) -> se_code e v = Some c.
Proof.
  intros W H. unfold se_code. destruct (find _ _) as [[v' c']|] eqn:F.
  - apply find_some in F as [F G]. cbn in G. apply String.eqb_eq in G as ->.
    f_equal. apply (enum_wf_same e (v, c') (v, c) W F H). reflexivity.
  - apply (find_none _ _ F) in H. cbn in H. now rewrite String.eqb_refl in H.
Qed.
Lemma in_se_variant e v c : enum_wfb e = true -> In (v, c) (se_vars e) -> se_variant e c = Some v.
Proof.
  intros W H. unfold se_variant. destruct (find _ _) as [[v' c']|] eqn:F.
  - apply find_some in F as [F G]. cbn in G. apply N.eqb_eq in G as ->.
    f_equal. apply (enum_wf_same e (v', c) (v, c) W F H). reflexivity.
  - apply (find_none _ _ F) in H. cbn in H. now rewrite N.eqb_refl in H.
Qed.
Lemma code_variant e v c : enum_wfb e = true -> (se_code e v = Some c <-> se_variant e c = Some v).
Proof.
  intro W. split; intro H.
  - apply in_se_variant, se_code_in; easy.
  - apply in_se_code, se_variant_in; easy.
Qed.

(** ** Layouts *)
Definition item_wfb (i : item) : bool :=
  match i with
  | IOpt e => enum_wfb e
  | IRaw (Some r) d => (len r =? len d) && negb (len d =? 0) && forallb (fun x => x <? 256) r
  | IRaw None d => negb (len d =? 0)
  end.
Lemma layouts_wf t : forallb item_wfb (items_of t) = true.
Proof. destruct t; vm_compute; reflexivity. Qed.

Definition item_size (i : item) : N := match i with IOpt _ => 1 | IRaw _ d => len d end.
Lemma layouts_size t : fold_right (fun i n => item_size i + n) 0 (items_of t) = data_size t.
Proof. destruct t; vm_compute; reflexivity. Qed.

(** The values that can exist: variants that exist, byte arrays of the right length, and the asserted fields (which are
    private and have no setter) as in [Default] or as read. *)
Definition item_ok (i : item) (v : sval) : Prop :=
  match i, v with
  | IOpt e, VOpt x => In x (map fst (se_vars e))
  | IRaw (Some r) _, VRaw bs => bs = r
  | IRaw None d, VRaw bs => len bs = len d /\ bytes_ok bs
  | _, _ => False
  end.
Definition sdata_ok (d : sdata) : Prop := Forall2 item_ok (items_of (sd_type d)) (sd_vals d).

Lemma bytes_eqb_eq a : forall b, bytes_eqb a b = true <-> a = b.
Proof.
  induction a as [|x a IH]; intros [|y b]; cbn [bytes_eqb]; try easy.
  rewrite andb_true_iff, N.eqb_eq, IH. split; [intros [-> ->]; easy|]. intro H. injection H; easy.
Qed.

Lemma enc_item_ok i v : item_wfb i = true -> item_ok i v -> exists bs, enc_item i v = Ok bs /\ len bs = item_size i /\ bytes_ok bs.
Proof.
  destruct i as [e|[r|] d], v as [x|bs]; cbn [item_wfb item_ok enc_item item_size]; try easy; intros W H.
  - apply in_map_iff in H as ([x' c] & <- & H). cbn [fst]. rewrite (in_se_code e x' c) by easy.
    exists [c]. split; [easy|]. split; [reflexivity|]. apply enum_code_lt in H; [|easy].
    constructor; [exact H|constructor].
  - subst. exists r. split; [easy|]. apply andb_true_iff in W as [W1 W2]. split; [lia|].
    apply Forall_forall. intros y Y. rewrite forallb_forall in W2. specialize (W2 y Y). lia.
  - exists bs. easy.
Qed.
Lemma enc_items_ok l : forall vs, forallb item_wfb l = true -> Forall2 item_ok l vs ->
  exists bs, enc_items l vs = Ok bs /\ len bs = fold_right (fun i n => item_size i + n) 0 l /\ bytes_ok bs.
Proof.
  induction l as [|i l IH]; intros vs W H.
  - inversion H. exists []. split; [easy|]. split; [easy|constructor].
  - cbn [forallb] in W. apply andb_true_iff in W as [Wi W].
    inversion H as [|i' v l' vs' Hv Hvs E1 E2]. destruct (enc_item_ok i v Wi Hv) as (x & X & Lx & Ox).
    destruct (IH vs' W Hvs) as (y & Y & Ly & Oy). exists (x ++ y). cbn [enc_items fold_right]. rewrite X. cbn [res_bind].
    rewrite Y. cbn [res_bind]. split; [easy|]. rewrite len_app. split; [lia|]. now apply Forall_app.
Qed.

Lemma item_wr i v buf pos bs : item_wfb i = true -> item_ok i v -> enc_item i v = Ok bs -> has buf pos bs ->
  rd_item i buf pos = Ok (v, pos + len bs).
Proof.
  intros W HV HE H. destruct i as [e|[r|] d], v as [x|ys]; cbn [item_wfb item_ok enc_item rd_item] in *; try easy.
  - apply in_map_iff in HV as ([x' c] & <- & HV). cbn [fst] in *. rewrite (in_se_code e x' c) in HE by easy.
    apply Ok_inj in HE as <-. eapply bind_ok.
    + apply rd_u8_get. apply has_cons in H as [H _]. exact H.
    + cbv beta. rewrite (in_se_variant e x' c) by easy. reflexivity.
  - subst. apply Ok_inj in HE as <-. apply andb_true_iff in W as [W1 _].
    replace (len d) with (len r) by lia.
    eapply bind_ok; [apply rd_bytes_has; exact H|]. cbv beta.
    rewrite (proj2 (bytes_eqb_eq r r) eq_refl). eapply bind_ok; reflexivity.
  - apply Ok_inj in HE as <-. destruct HV as [HV _]. rewrite <- HV.
    eapply bind_ok; [apply rd_bytes_has; exact H|]. cbv beta. eapply bind_ok; reflexivity.
Qed.
Lemma items_wr l : forall vs buf pos bs, forallb item_wfb l = true -> Forall2 item_ok l vs -> enc_items l vs = Ok bs ->
  has buf pos bs -> rd_items l buf pos = Ok (vs, pos + len bs).
Proof.
  induction l as [|i l IH]; intros vs buf pos bs W HV HE H; inversion HV as [|i' v l' vs' Hv Hvs E1 E2]; subst.
  - apply Ok_inj in HE as <-. cbn. unfold ret. now rewrite N.add_0_r.
  - cbn [forallb] in W. apply andb_true_iff in W as [Wi W]. cbn [enc_items] in HE.
    destruct (enc_item i v) as [x| |] eqn:X; try easy. cbn [res_bind] in HE.
    destruct (enc_items l vs') as [y| |] eqn:Y; try easy. cbn [res_bind] in HE. apply Ok_inj in HE as <-.
    apply has_app in H as [H1 H2]. cbn [rd_items]. eapply bind_ok; [eapply item_wr; eassumption|]. cbv beta.
    eapply bind_ok; [eapply IH; eassumption|]. cbv beta. unfold ret. rewrite len_app. do 2 f_equal. lia.
Qed.

Lemma item_rw i v buf pos pos' : item_wfb i = true -> bytes_ok buf -> rd_item i buf pos = Ok (v, pos') ->
  item_ok i v /\ exists bs, enc_item i v = Ok bs /\ has buf pos bs /\ pos' = pos + len bs.
Proof.
  intros W HB H. destruct i as [e|req d]; cbn [rd_item] in H.
  - apply bind_inv in H as (c & p & H1 & H). apply rd_u8_inv in H1 as [H1 ->].
    destruct (se_variant e c) as [x|] eqn:V; [|easy]. apply ret_inv in H as [<- <-].
    pose proof (se_variant_in _ _ _ V) as I. split.
    + cbn [item_ok]. apply in_map_iff. exists (x, c). easy.
    + exists [c]. cbn [enc_item]. rewrite (in_se_code e x c) by easy. split; [easy|].
      split; [|reflexivity]. apply has_cons. split; [easy|]. apply has_nil. apply getN_Some_lt in H1. lia.
  - apply bind_inv in H as (bs & p & H1 & H). apply bind_inv in H as (u & p2 & H2 & H).
    apply guard_inv in H2 as (G & <-). apply ret_inv in H as [<- <-].
    destruct (rd_bytes_inv _ _ _ _ _ H1) as (L & -> & Hs).
    destruct Hs as [Hs|Hs]; [exfalso; destruct req; cbn [item_wfb] in W; lia|]. split.
    + destruct req as [r|]; cbn [item_ok].
      * now apply bytes_eqb_eq.
      * split; [lia|]. eapply has_bytes_ok; eassumption.
    + exists bs. destruct req; cbn [enc_item]; (split; [easy|split; [easy|lia]]).
Qed.

Lemma items_rw l : forall vs buf pos pos', forallb item_wfb l = true -> bytes_ok buf -> pos <= len buf ->
  rd_items l buf pos = Ok (vs, pos') ->
  Forall2 item_ok l vs /\ exists bs, enc_items l vs = Ok bs /\ has buf pos bs /\ pos' = pos + len bs.
Proof.
  induction l as [|i l IH]; intros vs buf pos pos' W HB HP H; cbn [rd_items] in H.
  - apply ret_inv in H as [<- <-]. split; [constructor|]. exists []. split; [easy|]. split; [now apply has_nil|]. cbn. lia.
  - cbn [forallb] in W. apply andb_true_iff in W as [Wi W].
    apply bind_inv in H as (v & p & H1 & H). apply bind_inv in H as (vs' & p2 & H2 & H). apply ret_inv in H as [<- <-].
    apply item_rw in H1 as (V & x & X & Hx & ->); [|easy|easy].
    pose proof (has_len _ _ _ Hx) as Lx.
    apply IH in H2 as (VS & y & Y & Hy & ->); [|easy|easy|lia].
    split; [now constructor|]. exists (x ++ y). cbn [enc_items]. rewrite X. cbn [res_bind]. rewrite Y. split; [easy|].
    split; [apply has_app; easy|rewrite len_app; lia].
Qed.
Lemma item_no_panic i buf pos : rd_item i buf pos <> Panic.
Proof.
  destruct i as [e|req d]; cbn [rd_item]; unfold bind.
  - pose proof (rd_le_no_panic 1 buf pos) as Z; change (rd_le 1) with rd_u8 in Z. destruct (rd_u8 buf pos) as [[c p]| |]; try easy. destruct (se_variant e c); easy.
  - pose proof (rd_bytes_no_panic (len d) buf pos). destruct (rd_bytes _ _ _) as [[bs p]| |]; try easy.
    unfold guard. destruct (match req with Some r => bytes_eqb bs r | None => true end); easy.
Qed.
Lemma items_no_panic l : forall buf pos, rd_items l buf pos <> Panic.
Proof.
  induction l as [|i l IH]; intros buf pos; cbn [rd_items]; [easy|]. unfold bind.
  pose proof (item_no_panic i buf pos). destruct (rd_item i buf pos) as [[v p]| |]; try easy.
  pose proof (IH buf p). destruct (rd_items l buf p) as [[vs p2]| |]; easy.
Qed.

(** ** Strings *)
Fixpoint cut0 (s : list N) : list N :=
  match s with
  | [] => []
  | x :: s => if x =? 0 then [] else x :: cut0 s
  end.
Lemma cut0_nz s : Forall (fun x => x <> 0) (cut0 s).
Proof.
  induction s as [|x s IH]; cbn [cut0]; [constructor|]. destruct (N.eqb_spec x 0); [constructor|]. now constructor.
Qed.
Lemma cut0_id s : Forall (fun x => x <> 0) s -> cut0 s = s.
Proof.
  induction 1 as [|x s H _ IH]; cbn [cut0]; [easy|]. destruct (N.eqb_spec x 0); [easy|]. now f_equal.
Qed.
Lemma cut0_split s t : exists r, s ++ 0 :: t = cut0 s ++ 0 :: r.
Proof.
  induction s as [|x s [r IH]]; cbn [cut0 app]; [now exists t|].
  destruct (N.eqb_spec x 0) as [->|]; [eexists; reflexivity|]. exists r. cbn [app]. now rewrite IH.
Qed.
Lemma len_cut0 s : len (cut0 s) <= len s.
Proof.
  induction s as [|x s IH]; cbn [cut0]; [easy|]. destruct (x =? 0); rewrite ?len_cons; [rewrite (@len_nil N)|]; lia.
Qed.

Lemma str32_at s buf pos : Forall (fun x => x <> 0) s -> len s <= 31 -> has buf pos (s ++ [0]) ->
  rd_str32 buf pos = Ok (s, pos + 32).
Proof.
  intros NZ L H. unfold rd_str32. eapply bind_ok.
  - unfold rd_pad_to. rewrite (rd_nullstring_has _ _ _ NZ H).
    replace (if pos + len s + 1 - pos <? 32 then pos + 32 else pos + len s + 1) with (pos + 32).
    + reflexivity.
    + destruct (N.ltb_spec (pos + len s + 1 - pos) 32); lia.
  - cbv beta. replace (len s <=? 31) with true by lia. eapply bind_ok; reflexivity.
Qed.
Lemma str32_inv s buf pos pos' : rd_str32 buf pos = Ok (s, pos') ->
  Forall (fun x => x <> 0) s /\ len s <= 31 /\ has buf pos (s ++ [0]) /\ pos' = pos + 32.
Proof.
  unfold rd_str32. intro H. apply bind_inv in H as (s' & p & H1 & H). apply bind_inv in H as (u & p2 & H2 & H).
  apply guard_inv in H2 as (G & <-). apply ret_inv in H as [<- <-].
  unfold rd_pad_to in H1. destruct (rd_nullstring buf pos) as [[s'' p']| |] eqn:R; try easy.
  apply rd_nullstring_inv in R as (NZ & Hs & ->).
  assert (s'' = s') as -> by congruence.
  assert (p = if pos + len s' + 1 - pos <? 32 then pos + 32 else pos + len s' + 1) as -> by congruence.
  split; [easy|]. split; [lia|]. split; [easy|].
  destruct (N.ltb_spec (pos + len s' + 1 - pos) 32); lia.
Qed.
Lemma str32_no_panic buf pos : rd_str32 buf pos <> Panic.
Proof.
  unfold rd_str32, bind, rd_pad_to. pose proof (rd_nullstring_no_panic buf pos).
  destruct (rd_nullstring buf pos) as [[s p]| |]; try easy. unfold guard. destruct (len s <=? 31); easy.
Qed.
Lemma enc_str32_ok s bs : enc_str32 s = Ok bs -> len s <= 31 /\ bs = pad_to 32 (s ++ [0]) /\ len bs = 32.
Proof.
  unfold enc_str32. destruct (N.leb_spec (len s) 31); [|easy]. intro E. apply Ok_inj in E as <-.
  split; [easy|]. split; [easy|]. rewrite len_pad_to, len_app, len_cons, (@len_nil N). lia.
Qed.

(** ** Files: what is read where *)
Definition setting_at (t : stype) (buf : list N) (pos : N) (s : setting) (d : list N) (c : N) : Prop :=
  sd_type (st_data s) = t /\ sdata_ok (st_data s) /\
  Forall (fun x => x <> 0) (st_brand s) /\ len (st_brand s) <= 31 /\
  Forall (fun x => x <> 0) (st_software s) /\ len (st_software s) <= 31 /\
  Forall (fun x => x <> 0) (st_version s) /\ len (st_version s) <= 31 /\
  enc_items (items_of t) (sd_vals (st_data s)) = Ok d /\ c < 65536 /\
  has buf pos (le_enc 4 96) /\
  has buf (pos + 4) (st_brand s ++ [0]) /\
  has buf (pos + 36) (st_software s ++ [0]) /\
  has buf (pos + 68) (st_version s ++ [0]) /\
  has buf (pos + 100) (le_enc 4 (data_size t)) /\
  has buf (pos + 104) d /\
  has buf (pos + 104 + data_size t) (le_enc 2 c) /\
  has buf (pos + 106 + data_size t) (le_enc 2 0).

Lemma rd_le_2_any c buf pos : c < 65536 -> has buf pos (le_enc 2 c) -> rd_le 2 buf pos = Ok (c, pos + 2).
Proof. intros L H. apply (rd_le_has 2); easy. Qed.

Lemma setting_read t buf pos s d c : setting_at t buf pos s d c ->
  rd_setting t buf pos = Ok (s, pos + 108 + data_size t).
Proof.
  intros (T & D & Z1 & L1 & Z2 & L2 & Z3 & L3 & E & C & H0 & H1 & H2 & H3 & H4 & H5 & H6 & H7).
  unfold rd_setting.
  eapply bind_ok; [apply (rd_le_has 4 96); [reflexivity|exact H0]|]. cbv beta. change (96 =? 96) with true.
  eapply bind_ok; [reflexivity|]. cbv beta. change (N.of_nat 4) with 4.
  eapply bind_ok; [apply (str32_at _ _ _ Z1 L1 H1)|]. cbv beta. replace (pos + 4 + 32) with (pos + 36) by lia.
  eapply bind_ok; [apply (str32_at _ _ _ Z2 L2 H2)|]. cbv beta. replace (pos + 36 + 32) with (pos + 68) by lia.
  eapply bind_ok; [apply (str32_at _ _ _ Z3 L3 H3)|]. cbv beta. replace (pos + 68 + 32) with (pos + 100) by lia.
  eapply bind_ok; [apply (rd_le_has 4 (data_size t)); [destruct t; reflexivity|exact H4]|]. cbv beta.
  rewrite N.eqb_refl. eapply bind_ok; [reflexivity|]. cbv beta. change (N.of_nat 4) with 4.
  replace (pos + 100 + 4) with (pos + 104) by lia.
  unfold sdata_ok in D. rewrite T in D. destruct (enc_items_ok _ _ (layouts_wf t) D) as (d' & E' & LD & _).
  rewrite E in E'. apply Ok_inj in E' as <-. rewrite layouts_size in LD.
  eapply bind_ok.
  { unfold rd_sdata. rewrite (items_wr _ _ _ _ _ (layouts_wf t) D E H5), LD. reflexivity. }
  cbv beta. eapply bind_ok; [apply rd_le_2_any; [exact C|exact H6]|]. cbv beta.
  replace (pos + 104 + data_size t + 2) with (pos + 106 + data_size t) by lia.
  eapply bind_ok; [apply rd_le_2_any; [|exact H7]; reflexivity|]. cbv beta. change (0 =? 0) with true.
  eapply bind_ok; [reflexivity|]. cbv beta. unfold ret. rewrite <- T at 1.
  destruct s as [b1 b2 b3 [t' vs]]. cbn [st_brand st_software st_version st_data sd_type sd_vals] in *. subst t'.
  do 2 f_equal. lia.
Qed.

Lemma setting_inv t buf pos s pos' : bytes_ok buf -> rd_setting t buf pos = Ok (s, pos') ->
  pos' = pos + 108 + data_size t /\ exists d c, setting_at t buf pos s d c.
Proof.
  intros HB H. unfold rd_setting in H.
  apply bind_inv in H as (n & p & H0 & H). apply (rd_le_inv 4) in H0 as (_ & H0 & ->); [|easy|easy].
  apply bind_inv in H as (u & p & G & H). apply guard_inv in G as (G0 & <-). apply N.eqb_eq in G0 as ->.
  change (N.of_nat 4) with 4 in H.
  apply bind_inv in H as (b1 & p & H1 & H). apply str32_inv in H1 as (Z1 & L1 & H1 & ->).
  apply bind_inv in H as (b2 & p & H2 & H). apply str32_inv in H2 as (Z2 & L2 & H2 & ->).
  apply bind_inv in H as (b3 & p & H3 & H). apply str32_inv in H3 as (Z3 & L3 & H3 & ->).
  apply bind_inv in H as (m & p & H4 & H). apply (rd_le_inv 4) in H4 as (_ & H4 & ->); [|easy|easy].
  apply bind_inv in H as (u' & p & G & H). apply guard_inv in G as (G0 & <-). apply N.eqb_eq in G0 as ->.
  change (N.of_nat 4) with 4 in H.
  apply bind_inv in H as (sd & p & H5 & H). unfold rd_sdata in H5.
  destruct (rd_items _ _ _) as [[vs p']| |] eqn:R; try easy.
  assert (sd = mk_sdata t vs) as -> by congruence. assert (p' = p) as -> by congruence. clear H5.
  pose proof (has_len _ _ _ H4) as LL. rewrite len_le_enc in LL.
  apply items_rw in R as (OK & d & E & H5 & ->); [|apply layouts_wf|easy|lia].
  destruct (enc_items_ok _ _ (layouts_wf t) OK) as (d' & E' & LD & _).
  rewrite E in E'. apply Ok_inj in E' as <-. rewrite layouts_size in LD.
  apply bind_inv in H as (c & p & H6 & H). apply (rd_le_inv 2) in H6 as (C & H6 & ->); [|easy|easy].
  apply bind_inv in H as (z & p & H7 & H). apply (rd_le_inv 2) in H7 as (_ & H7 & ->); [|easy|easy].
  apply bind_inv in H as (u'' & p & G & H). apply guard_inv in G as (G0 & <-). apply N.eqb_eq in G0 as ->.
  change (N.of_nat 2) with 2 in H. apply ret_inv in H as [<- <-]. split; [lia|]. exists d, c.
  unfold setting_at, sdata_ok. cbn [st_brand st_software st_version st_data sd_type sd_vals].
  replace (pos + 36) with (pos + 4 + 32) by lia. replace (pos + 68) with (pos + 4 + 32 + 32) by lia.
  replace (pos + 100) with (pos + 4 + 32 + 32 + 32) by lia. replace (pos + 104) with (pos + 4 + 32 + 32 + 32 + 4) by lia.
  replace (pos + 106 + data_size t) with (pos + 4 + 32 + 32 + 32 + 4 + data_size t + 2) by lia.
  rewrite LD in H6, H7. change (N.of_nat 2) with 2 in *.
  repeat split; try eassumption.
Qed.

Lemma setting_no_panic t buf pos : rd_setting t buf pos <> Panic.
Proof.
  unfold rd_setting, bind, guard.
  pose proof (rd_le_no_panic 4 buf pos). destruct (rd_le 4 buf pos) as [[n p0]| |]; try easy. destruct (n =? 96); [|easy].
  cbn [ret fail]. unfold ret.
  pose proof (str32_no_panic buf p0). destruct (rd_str32 buf p0) as [[b1 p1]| |]; try easy.
  pose proof (str32_no_panic buf p1). destruct (rd_str32 buf p1) as [[b2 p2]| |]; try easy.
  pose proof (str32_no_panic buf p2). destruct (rd_str32 buf p2) as [[b3 p3]| |]; try easy.
  pose proof (rd_le_no_panic 4 buf p3). destruct (rd_le 4 buf p3) as [[m p4]| |]; try easy. destruct (m =? data_size t); [|easy].
  unfold rd_sdata.
  pose proof (items_no_panic (items_of t) buf p4). destruct (rd_items (items_of t) buf p4) as [[vs p5]| |]; try easy.
  pose proof (rd_le_no_panic 2 buf p5). destruct (rd_le 2 buf p5) as [[c p6]| |]; try easy.
  pose proof (rd_le_no_panic 2 buf p6). destruct (rd_le 2 buf p6) as [[z p7]| |]; try easy. destruct (z =? 0); easy.
Qed.

(** ** Writing *)
Definition setting_ok (s : setting) : Prop :=
  len (st_brand s) <= 31 /\ len (st_software s) <= 31 /\ len (st_version s) <= 31 /\ sdata_ok (st_data s).

Lemma enc_front_ok s : setting_ok s -> exists d,
  enc_items (items_of (sd_type (st_data s))) (sd_vals (st_data s)) = Ok d /\ len d = data_size (sd_type (st_data s)) /\ bytes_ok d /\
  enc_front s = Ok (le_enc 4 96 ++ pad_to 32 (st_brand s ++ [0]) ++ pad_to 32 (st_software s ++ [0]) ++
                    pad_to 32 (st_version s ++ [0]) ++ le_enc 4 (data_size (sd_type (st_data s))) ++ d).
Proof.
  intros (L1 & L2 & L3 & D). destruct (enc_items_ok _ _ (layouts_wf _) D) as (d & E & LD & OD).
  rewrite layouts_size in LD. exists d. split; [easy|]. split; [easy|]. split; [easy|].
  unfold enc_front, enc_str32. replace (len (st_brand s) <=? 31) with true by lia.
  replace (len (st_software s) <=? 31) with true by lia. replace (len (st_version s) <=? 31) with true by lia.
  cbn [res_bind]. rewrite E. reflexivity.
Qed.

Lemma len_pad32 s : len s <= 31 -> len (pad_to 32 (s ++ [0])) = 32.
Proof. intro H. rewrite len_pad_to, len_app, len_cons, (@len_nil N). lia. Qed.

Lemma len_front s f : setting_ok s -> enc_front s = Ok f -> len f = 104 + data_size (sd_type (st_data s)).
Proof.
  intros OK H. destruct (enc_front_ok s OK) as (d & _ & LD & _ & E). rewrite E in H. apply Ok_inj in H as <-.
  destruct OK as (L1 & L2 & L3 & _). rewrite !len_app, !len_le_enc, !len_pad32, LD by easy. lia.
Qed.

(** The range covered by the checksum, as a part of what is in front of it. *)
Definition covered (t : stype) (front : list N) : list N := match t with TDjm => front | _ => dropN 104 front end.

Lemma checksum_front s f : setting_ok s -> enc_front s = Ok f -> checksum s = Ok (crc16 (covered (sd_type (st_data s)) f)).
Proof.
  intros OK H. pose proof (len_front s f OK H) as LF. unfold checksum, enc_nosum. rewrite H. cbn [res_bind].
  set (data := f ++ le_enc 2 0 ++ le_enc 2 0).
  assert (len data = len f + 4) as LD by (unfold data; rewrite !len_app, !len_le_enc; lia).
  set (start := match sd_type (st_data s) with TDjm => 0 | _ => 104 end).
  assert (start <= len f) as S by (unfold start; destruct (sd_type (st_data s)); lia).
  replace ((len data <? 4) || (len data - 4 <? start)) with false by lia. do 2 f_equal.
  replace (len data - 4 - start) with (len f - start) by lia.
  assert (dropN start data = dropN start f ++ le_enc 2 0 ++ le_enc 2 0) as ->.
  { unfold data, dropN. rewrite skipn_app. replace (N.to_nat start - List.length f)%nat with 0%nat by (unfold len in S; lia). easy. }
  assert (len (dropN start f) = len f - start) as L by apply len_dropN.
  rewrite <- L, takeN_app by easy. unfold covered, start. destruct (sd_type (st_data s)); easy.
Qed.

Lemma enc_setting_front s : setting_ok s -> exists f, enc_front s = Ok f /\
  enc_setting s = Ok (f ++ le_enc 2 (crc16 (covered (sd_type (st_data s)) f)) ++ le_enc 2 0).
Proof.
  intro OK. destruct (enc_front_ok s OK) as (d & _ & _ & _ & E). eexists. split; [exact E|].
  unfold enc_setting. rewrite (checksum_front s _ OK E), E. reflexivity.
Qed.

(** What is written is read back, with strings cut at the first zero. *)
Definition cut_strings (s : setting) : setting :=
  mk_setting (cut0 (st_brand s)) (cut0 (st_software s)) (cut0 (st_version s)) (st_data s).

Lemma has_cut0 buf pos s n : has buf pos (pad_to n (s ++ [0])) -> has buf pos (cut0 s ++ [0]).
Proof.
  unfold pad_to. rewrite <- app_assoc. cbn [app]. destruct (cut0_split s (zeros (n - len (s ++ [0])))) as [r ->].
  change (0 :: r) with ([0] ++ r). rewrite app_assoc. intro H. now apply has_app in H as [H _].
Qed.

Lemma setting_wr s buf pos bs : setting_ok s -> enc_setting s = Ok bs -> has buf pos bs ->
  rd_setting (sd_type (st_data s)) buf pos = Ok (cut_strings s, pos + len bs).
Proof.
  intros OK E H. destruct (enc_setting_front s OK) as (f & F & E'). rewrite E in E'. apply Ok_inj in E' as ->.
  destruct (enc_front_ok s OK) as (d & D & LD & _ & F'). pose proof (len_front s f OK F) as LF.
  rewrite F in F'. apply Ok_inj in F' as F'. pose proof OK as (L1 & L2 & L3 & DO).
  set (t := sd_type (st_data s)) in *. set (c := crc16 (covered t f)) in *.
  replace (pos + len (f ++ le_enc 2 c ++ le_enc 2 0)) with (pos + 108 + data_size t)
    by (rewrite !len_app, !len_le_enc, LF; lia).
  apply setting_read with (d := d) (c := c). unfold setting_at. cbn [cut_strings st_brand st_software st_version st_data].
  apply has_app in H as [H1 H2]. rewrite LF in H2. apply has_app in H2 as [H2 H3].
  rewrite len_le_enc in H3. rewrite F' in H1.
  apply has_app in H1 as [G0 H1]. apply has_app in H1 as [G1 H1]. apply has_app in H1 as [G2 H1]. apply has_app in H1 as [G3 H1].
  apply has_app in H1 as [G4 G5]. rewrite !len_le_enc, !len_pad32 in * by easy. change (N.of_nat 4) with 4 in *. change (N.of_nat 2) with 2 in *.
  pose proof (len_cut0 (st_brand s)). pose proof (len_cut0 (st_software s)). pose proof (len_cut0 (st_version s)).
  assert (c < 65536) as C by apply crc16_lt.
  replace (pos + 36) with (pos + 4 + 32) by lia. replace (pos + 68) with (pos + 4 + 32 + 32) by lia.
  replace (pos + 100) with (pos + 4 + 32 + 32 + 32) by lia. replace (pos + 104) with (pos + 4 + 32 + 32 + 32 + 4) by lia.
  repeat split; try apply cut0_nz; try lia; try assumption; try (eapply has_cut0; eassumption).
  - replace (pos + 4 + 32 + 32 + 32 + 4 + data_size t) with (pos + (104 + data_size t)) by lia. exact H2.
  - replace (pos + 106 + data_size t) with (pos + (104 + data_size t) + 2) by lia. exact H3.
Qed.
