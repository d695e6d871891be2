(** * Facts about XOR streams *)
From Coq Require Import NArith ZArith List Bool Lia.
From Coq Require Import ZifyBool ZifyNat ZifyN.
From Verif Require Import Base BaseFacts Xor.
Import ListNotations.
Open Scope N_scope.
Ltac Zify.zify_post_hook ::= Z.div_mod_to_equations.

Definition ksz (key : list N) : Z := Z.of_N (len key).
(** The next byte that the iterator yields has number [i]. *)
Definition cyc_at (key : list N) (i : Z) (c : cyc) : Prop :=
  cy_orig c = key /\ exists j, j <= len key /\ cy_rest c = dropN j key /\ (Z.of_N j mod ksz key = i mod ksz key)%Z.

Lemma ksz_pos key : key <> [] -> (0 < ksz key)%Z.
Proof. destruct key; [easy|]. intros _. unfold ksz. rewrite len_cons. lia. Qed.
Lemma key_at_congr key i j : (i mod ksz key = j mod ksz key)%Z -> key_at key i = key_at key j.
Proof. unfold key_at, ksz. now intros ->. Qed.
Lemma cyc_at_congr key i j c : (i mod ksz key = j mod ksz key)%Z -> cyc_at key i c -> cyc_at key j c.
Proof. intros E (H1 & k & H2 & H3 & H4). split; [easy|]. exists k. split; [easy|]. split; [easy|]. congruence. Qed.
Lemma mod_add_1 k i j : (0 < k -> i mod k = j mod k -> (i + 1) mod k = (j + 1) mod k)%Z.
Proof. intros K E. rewrite (Z.add_mod i), (Z.add_mod j) by lia. now rewrite E. Qed.
Lemma mod_add_n k i j n : (0 < k -> i mod k = j mod k -> (i + n) mod k = (j + n) mod k)%Z.
Proof. intros K E. rewrite (Z.add_mod i), (Z.add_mod j) by lia. now rewrite E. Qed.

Lemma dropN_nth (key : list N) j : j < len key -> dropN j key = nth (N.to_nat j) key 0 :: dropN (j + 1) key.
Proof.
  unfold len, dropN. intro H. replace (N.to_nat (j + 1)) with (S (N.to_nat j)) by lia.
  assert (N.to_nat j < length key)%nat as L by lia. revert L. generalize (N.to_nat j). clear.
  induction key as [|k key IH]; intros n L; [simpl in L; lia|]. destruct n as [|n]; [reflexivity|]. simpl in L.
  change (skipn n key = nth n key 0 :: skipn (S n) key). apply IH. lia.
Qed.
Lemma dropN_len (key : list N) j : len key <= j -> dropN j key = [].
Proof. unfold len, dropN. intro H. apply skipn_all2. lia. Qed.

Lemma cyc_next_at key i c : key <> [] -> cyc_at key i c -> exists c', cyc_next c = (Some (key_at key i), c') /\ cyc_at key (i + 1) c'.
Proof.
  intros HK (H1 & j & H2 & H3 & H4). pose proof (ksz_pos key HK) as KP.
  unfold cyc_next. rewrite H3. destruct (j =? len key) eqn:EJ.
  - rewrite (dropN_len key j) by lia. rewrite H1.
    assert (Z.of_N j = ksz key) as EJ' by (unfold ksz; lia). rewrite EJ', Z.mod_same in H4 by lia.
    destruct key as [|k r]; [easy|]. eexists. split; [f_equal; f_equal|].
    + unfold key_at. change (Z.of_N (len (k :: r))) with (ksz (k :: r)). rewrite <- H4. reflexivity.
    + split; [easy|]. exists 1. split; [rewrite len_cons; lia|]. split; [reflexivity|]. apply (mod_add_1 _ 0 i); [easy|].
      rewrite Z.mod_0_l by lia. easy.
  - assert (j < len key) as LJ by lia. rewrite (dropN_nth key j LJ). eexists. split; [f_equal; f_equal|].
    + unfold key_at. change (Z.of_N (len key)) with (ksz key). rewrite <- H4.
      rewrite Z.mod_small by (unfold ksz; lia). f_equal. lia.
    + split; [easy|]. exists (j + 1). split; [lia|]. split; [easy|]. rewrite N2Z.inj_add. now apply mod_add_1.
Qed.
Lemma cyc_skip_at key n : forall i c, key <> [] -> cyc_at key i c -> cyc_at key (i + Z.of_N n) (cyc_skip n c).
Proof.
  intros i c HK HC. unfold cyc_skip. induction n as [|n IH] using N.peano_ind.
  - now rewrite Z.add_0_r.
  - rewrite N.iter_succ. destruct (cyc_next_at key _ _ HK IH) as (c' & E & H). rewrite E. cbn [snd].
    eapply cyc_at_congr; [|exact H]. f_equal. lia.
Qed.
Lemma xor_bytes_at key : forall bs i c, key <> [] -> cyc_at key i c ->
  exists c', xor_bytes c bs = (xor_cycle key i bs, c') /\ cyc_at key (i + Z.of_N (len bs)) c'.
Proof.
  induction bs as [|x bs IH]; intros i c HK HC.
  - exists c. split; [easy|]. now rewrite (@len_nil N), Z.add_0_r.
  - destruct (cyc_next_at key i c HK HC) as (c1 & E1 & H1). destruct (IH (i + 1)%Z c1 HK H1) as (c2 & E2 & H2).
    exists c2. split.
    + cbn [xor_bytes xor_cycle]. unfold cyc_byte. rewrite E1, E2. reflexivity.
    + rewrite len_cons. eapply cyc_at_congr; [|exact H2]. f_equal. lia.
Qed.

(** ** [xor_cycle] *)
Lemma len_xor_cycle key : forall bs i, len (xor_cycle key i bs) = len bs.
Proof. induction bs as [|x bs IH]; intro i; [easy|]. cbn [xor_cycle]. now rewrite !len_cons, IH. Qed.
Lemma length_xor_cycle key : forall bs i, length (xor_cycle key i bs) = length bs.
Proof. induction bs as [|x bs IH]; intro i; [easy|]. cbn. now rewrite IH. Qed.
Lemma xor_cycle_app key : forall a b i, xor_cycle key i (a ++ b) = xor_cycle key i a ++ xor_cycle key (i + Z.of_N (len a)) b.
Proof.
  induction a as [|x a IH]; intros b i; [now rewrite (@len_nil N), Z.add_0_r|]. cbn [app xor_cycle].
  rewrite IH, len_cons. do 3 f_equal. lia.
Qed.
Lemma xor_cycle_invol key : forall bs i, xor_cycle key i (xor_cycle key i bs) = bs.
Proof.
  induction bs as [|x bs IH]; intro i; [easy|]. cbn [xor_cycle]. rewrite IH. f_equal.
  now rewrite N.lxor_assoc, N.lxor_nilpotent, N.lxor_0_r.
Qed.
Lemma xor_cycle_congr key : forall bs i j, key <> [] -> (i mod ksz key = j mod ksz key)%Z -> xor_cycle key i bs = xor_cycle key j bs.
Proof.
  induction bs as [|x bs IH]; intros i j HK E; [easy|]. cbn [xor_cycle]. rewrite (key_at_congr key i j E).
  f_equal. apply IH; [easy|]. apply mod_add_1; [now apply ksz_pos|easy].
Qed.
Lemma xor_cycle_take key : forall n bs i, takeN n (xor_cycle key i bs) = xor_cycle key i (takeN n bs).
Proof.
  intro n. unfold takeN. induction (N.to_nat n) as [|m IH]; intros bs i; [easy|]. destruct bs as [|x bs]; [easy|]. cbn.
  now rewrite IH.
Qed.
Lemma xor_cycle_drop key : forall n bs i, dropN n (xor_cycle key i bs) = xor_cycle key (i + Z.of_N n) (dropN n bs).
Proof.
  intros n. unfold dropN. replace (Z.of_N n) with (Z.of_nat (N.to_nat n)) by lia.
  induction (N.to_nat n) as [|m IH]; intros bs i; [cbn [skipn]; f_equal; lia|]. destruct bs as [|x bs]; [easy|].
  cbn [skipn xor_cycle]. rewrite IH. f_equal. lia.
Qed.
Lemma lxor_byte x k : x < 256 -> k < 256 -> N.lxor x k < 256.
Proof.
  intros Hx Hk. destruct (N.eq_dec (N.lxor x k) 0) as [->|NZ]; [easy|].
  apply (N.log2_lt_pow2 _ 8); [lia|]. pose proof (N.log2_lxor x k) as HL.
  assert (forall y, y < 256 -> N.log2 y < 8) as HB.
  { intros y Hy. destruct (N.eq_dec y 0) as [->|]; [easy|]. apply N.log2_lt_pow2; [lia|easy]. }
  pose proof (HB x Hx). pose proof (HB k Hk). lia.
Qed.
Lemma key_at_byte key i : bytes_ok key -> key_at key i < 256.
Proof.
  intro HK. unfold key_at. destruct (nth_in_or_default (Z.to_nat (i mod Z.of_N (len key))) key 0) as [H|H].
  - unfold bytes_ok in HK. rewrite Forall_forall in HK. now apply HK.
  - rewrite H. easy.
Qed.
Lemma xor_cycle_bytes key : forall bs i, bytes_ok key -> bytes_ok bs -> bytes_ok (xor_cycle key i bs).
Proof.
  induction bs as [|x bs IH]; intros i HK HB; [constructor|]. inversion HB; subst. cbn. constructor; [|now apply IH].
  apply lxor_byte; [easy|now apply key_at_byte].
Qed.
Lemma xor_cycle_nth key bs : forall i n, (n < length bs)%nat ->
  nth n (xor_cycle key i bs) 0 = N.lxor (nth n bs 0) (key_at key (i + Z.of_nat n)).
Proof.
  induction bs as [|x bs IH]; intros i n L; [simpl in L; lia|]. destruct n as [|n]; cbn [xor_cycle nth].
  - now rewrite Z.add_0_r.
  - rewrite IH by (simpl in L; lia). do 2 f_equal. lia.
Qed.

(** ** Streams *)
(** The key position of the stream [x] that was created at [start] is right. *)
Definition aligned (key : list N) (start : N) (x : xstream) : Prop :=
  key <> [] /\ xs_size x = len key /\ cyc_at key (Z.of_N (xs_pos x) - Z.of_N start) (xs_key x).
Definition view (key : list N) (start : N) (x : xstream) : list N * N := (xor_view key start (xs_buf x), xs_pos x).

Lemma with_key_aligned buf pos key :
  key <> [] -> aligned key pos (xs_with_key buf pos key).
Proof.
  intro HK. unfold xs_with_key. destruct key as [|k r] eqn:E; [easy|]. rewrite <- E in *. split; [easy|]. split; [easy|].
  split; [easy|]. exists 0. split; [lia|]. split; [reflexivity|]. cbn [xs_pos]. now rewrite Z.sub_diag.
Qed.
Lemma read_full_aligned key start x n :
  aligned key start x ->
  match xs_read_full x n with
  | Ok (bs, x') => rd_bytes n (fst (view key start x)) (xs_pos x) = Ok (bs, xs_pos x') /\ xs_buf x' = xs_buf x /\ aligned key start x' /\
      bs = xor_cycle key (Z.of_N (xs_pos x) - Z.of_N start) (takeN n (dropN (xs_pos x) (xs_buf x)))
  | Err e => rd_bytes n (fst (view key start x)) (xs_pos x) = Err e
  | Panic => False
  end.
Proof.
  intros (HK & HS & HC). unfold xs_read_full, rd_bytes, view. cbn [fst]. unfold xor_view.
  rewrite len_xor_cycle. destruct (n =? 0) eqn:EN.
  { split; [easy|]. split; [easy|]. split; [easy|]. apply N.eqb_eq in EN. subst n. reflexivity. }
  destruct (xs_pos x + n <=? len (xs_buf x)) eqn:EL; [|reflexivity].
  unfold xs_read_exact. destruct (zeros n) as [|z zs] eqn:EZ.
  { assert (len (zeros n) = 0) as H by now rewrite EZ. rewrite len_zeros in H. lia. }
  rewrite <- EZ. rewrite EN. unfold xs_read. rewrite (dropN_len (zeros n) n) by (rewrite len_zeros; lia).
  rewrite app_nil_r.
  set (raw := takeN n (dropN (xs_pos x) (xs_buf x))).
  assert (len raw = n) as LR by (unfold raw; rewrite len_takeN, len_dropN; lia).
  destruct (xor_bytes_at key raw _ _ HK HC) as (c' & E & HC'). rewrite E.
  rewrite (dropN_len (xor_cycle _ _ raw) n) by (rewrite len_xor_cycle; lia). cbn [res_bind fst snd].
  assert (takeN n (xor_cycle key (Z.of_N (xs_pos x) - Z.of_N start) raw) = xor_cycle key (Z.of_N (xs_pos x) - Z.of_N start) raw) as ET.
  { rewrite xor_cycle_take. f_equal. unfold takeN. apply firstn_all2. unfold len in LR. lia. }
  rewrite ET, app_nil_r. cbn [xs_pos xs_buf]. split; [|split; [easy|split; [|easy]]].
  - do 2 f_equal. rewrite xor_cycle_drop, xor_cycle_take. f_equal. lia.
  - split; [easy|]. split; [easy|]. cbn [xs_pos xs_key]. eapply cyc_at_congr; [|exact HC']. f_equal. lia.
Qed.
Lemma write_full_aligned key start x bs :
  aligned key start x -> aligned key start (xs_write_full x bs) /\ xs_pos (xs_write_full x bs) = xs_pos x + len bs /\
  xs_buf (xs_write_full x bs) = write_at (xs_buf x) (xs_pos x) (xor_cycle key (Z.of_N (xs_pos x) - Z.of_N start) bs).
Proof.
  intros (HK & HS & HC). unfold xs_write_full, xs_write. destruct (xor_bytes_at key bs _ _ HK HC) as (c' & E & HC'). rewrite E.
  cbn [xs_pos xs_buf]. split; [|split; [easy|]].
  - split; [easy|]. split; [easy|]. cbn [xs_pos xs_key]. eapply cyc_at_congr; [|exact HC']. f_equal. lia.
  - f_equal. rewrite xor_cycle_take. f_equal. unfold takeN. apply firstn_all2. unfold len. lia.
Qed.
Lemma seek_aligned key start x s :
  aligned key start x ->
  match xs_seek x s with
  | Ok (p, x') => seek_target (xs_buf x) (xs_pos x) s = Ok p /\ xs_pos x' = p /\ xs_buf x' = xs_buf x /\ aligned key start x'
  | Err e => seek_target (xs_buf x) (xs_pos x) s = Err e
  | Panic => False
  end.
Proof.
  intros (HK & HS & HC). pose proof (ksz_pos key HK) as KP. unfold xs_seek. rewrite HS.
  destruct (seek_target (xs_buf x) (xs_pos x) s) as [p|e|] eqn:ET; cbn [res_bind]; [|easy|].
  2:{ unfold seek_target in ET. destruct (_ <? 0)%Z in ET; discriminate. }
  split; [easy|]. split; [easy|]. split; [easy|]. split; [easy|]. split; [easy|]. cbn [xs_pos xs_key].
  match goal with |- cyc_at _ _ (cyc_skip ?o _) => set (off := o) end.
  eapply cyc_at_congr; [|apply cyc_skip_at; [exact HK|exact HC]].
  assert (exists q, Z.of_N off = Z.of_N p - Z.of_N (xs_pos x) + q * ksz key)%Z as (q & EQ).
  { unfold off, ksz in *. destruct (xs_pos x <? p) eqn:EC.
    - exists (- Z.of_N ((p - xs_pos x) / len key))%Z. pose proof (N.div_mod (p - xs_pos x) (len key)) as D. nia.
    - exists (1 + Z.of_N ((xs_pos x - p) / len key))%Z. pose proof (N.div_mod (xs_pos x - p) (len key)) as D.
      pose proof (N.mod_lt (xs_pos x - p) (len key)). nia. }
  rewrite EQ. replace (Z.of_N (xs_pos x) - Z.of_N start + (Z.of_N p - Z.of_N (xs_pos x) + q * ksz key))%Z
    with (Z.of_N p - Z.of_N start + q * ksz key)%Z by lia.
  apply Z.mod_add. lia.
Qed.

Lemma view_write key start buf pos bs :
  pos <= len buf ->
  xor_view key start (write_at buf pos (xor_cycle key (Z.of_N pos - Z.of_N start) bs)) = write_at (xor_view key start buf) pos bs.
Proof.
  intro HP. unfold write_at. destruct bs as [|x r] eqn:EB; [reflexivity|]. cbn [xor_cycle].
  change (N.lxor x (key_at key (Z.of_N pos - Z.of_N start)) :: xor_cycle key (Z.of_N pos - Z.of_N start + 1) r)
    with (xor_cycle key (Z.of_N pos - Z.of_N start) (x :: r)).
  rewrite <- EB. unfold pad_to, xor_view. rewrite !len_xor_cycle.
  replace (pos - len buf) with 0 by lia. change (zeros 0) with (@nil N). rewrite !app_nil_r.
  rewrite !xor_cycle_app, len_takeN. replace (N.min pos (len buf)) with pos by lia.
  rewrite xor_cycle_take, xor_cycle_drop.
  replace (- Z.of_N start + Z.of_N pos)%Z with (Z.of_N pos - Z.of_N start)%Z by lia. rewrite xor_cycle_invol.
  rewrite len_xor_cycle. do 3 f_equal. lia.
Qed.

Lemma run_view {A} key start (p : prog A) : forall x,
  aligned key start x -> gapless p (view key start x) ->
  match run_plain p (view key start x) with
  | Ok (a, s) => exists x', run_xor p x = Ok (a, x') /\ view key start x' = s /\ aligned key start x'
  | Err e => run_xor p x = Err e
  | Panic => False
  end.
Proof.
  induction p as [a|e|n k IH|bs k IH|s k IH]; intros x HA HG; cbn [run_plain run_xor gapless] in *.
  - exists x. auto.
  - easy.
  - pose proof (read_full_aligned key start x n HA) as HR. unfold view in HG. unfold view at 1. unfold view in HR. cbn [fst] in HR.
    destruct (xs_read_full x n) as [[r x']|e|] eqn:ER; [|now rewrite HR|easy].
    destruct HR as (H1 & H2 & H3 & _). rewrite H1 in *. cbn [res_bind fst snd] in *.
    specialize (IH r x' H3). unfold view at 1 in IH. rewrite H2 in IH. specialize (IH HG). unfold view at 1 in IH. now rewrite H2 in IH.
  - unfold view in HG. unfold view at 1. destruct HG as [HP HG].
    unfold xor_view in HP. rewrite len_xor_cycle in HP.
    destruct (write_full_aligned key start x bs HA) as (H1 & H2 & H3).
    specialize (IH _ H1). unfold view at 1 in IH. rewrite H2, H3, view_write in IH by easy. specialize (IH HG).
    unfold view at 1 in IH. now rewrite H2, H3, view_write in IH.
  - pose proof (seek_aligned key start x s HA) as HR. unfold view in HG. unfold view at 1.
    assert (seek_target (xor_view key start (xs_buf x)) (xs_pos x) s = seek_target (xs_buf x) (xs_pos x) s) as ES.
    { unfold seek_target, xor_view. now rewrite len_xor_cycle. }
    rewrite ES in *. destruct (xs_seek x s) as [[q x']|e|] eqn:ER; [|now rewrite HR|easy].
    destruct HR as (H1 & H2 & H3 & H4). rewrite H1 in *. cbn [res_bind fst snd] in *.
    specialize (IH q x' H4). unfold view at 1 in IH. rewrite H2, H3 in IH. specialize (IH HG). unfold view at 1 in IH. now rewrite H2, H3 in IH.
Qed.
Lemma run_aligned {A} key start (p : prog A) : forall x a x',
  aligned key start x -> run_xor p x = Ok (a, x') -> aligned key start x'.
Proof.
  induction p as [a|e|n k IH|bs k IH|s k IH]; intros x r x' HA HR; cbn [run_xor] in HR.
  - injection HR as <- <-. easy.
  - easy.
  - pose proof (read_full_aligned key start x n HA) as H. destruct (xs_read_full x n) as [[o x1]|e|]; [|easy|easy].
    cbn [res_bind fst snd] in HR. destruct H as (_ & _ & H & _). eapply IH; eassumption.
  - eapply IH; [|exact HR]. now apply write_full_aligned.
  - pose proof (seek_aligned key start x s HA) as H. destruct (xs_seek x s) as [[o x1]|e|]; [|easy|easy].
    cbn [res_bind fst snd] in HR. destruct H as (_ & _ & _ & H). eapply IH; eassumption.
Qed.
Lemma aligned_next key start x bs :
  aligned key start x -> fst (xor_bytes (xs_key x) bs) = xor_cycle key (Z.of_N (xs_pos x) - Z.of_N start) bs.
Proof. intros (HK & _ & HC). destruct (xor_bytes_at key bs _ _ HK HC) as (c' & E & _). now rewrite E. Qed.
Lemma cyc_at_inj key i j c : key <> [] -> cyc_at key i c -> cyc_at key j c -> (i mod ksz key = j mod ksz key)%Z.
Proof.
  intros HK (_ & a & A1 & A2 & A3) (_ & b & B1 & B2 & B3). rewrite A2 in B2. assert (a = b); [|congruence].
  assert (len (dropN a key) = len (dropN b key)) as E by (f_equal; exact B2). rewrite !len_dropN in E. clear - A1 B1 E. lia.
Qed.

(** ** Reads in pieces *)
(** What [read_exact] delivers when the inner reads deliver [chunks]: after each piece the key moves on by the bytes of
    the piece and also by those that are still missing. *)
Fixpoint split_out (key : list N) (i : Z) (chunks : list (list N)) : list N :=
  match chunks with
  | [] => []
  | c :: r => xor_cycle key i c ++ split_out key (i + Z.of_N (len c) + Z.of_N (len (concat r))) r
  end.
(** The number of key bytes that are lost. *)
Fixpoint drift (chunks : list (list N)) : N :=
  match chunks with [] => 0 | c :: r => len (concat r) + drift r end.

Lemma read_exact_chunks key : forall chunks i x old,
  key <> [] -> cyc_at key i (xs_key x) -> Forall (fun c => c <> []) chunks -> len old = len (concat chunks) ->
  has (xs_buf x) (xs_pos x) (concat chunks) ->
  exists x', xs_read_exact x old (map len chunks) = Ok (split_out key i chunks, x') /\
    xs_buf x' = xs_buf x /\ xs_pos x' = xs_pos x + len (concat chunks) /\ xs_size x' = xs_size x /\
    cyc_at key (i + Z.of_N (len (concat chunks)) + Z.of_N (drift chunks)) (xs_key x').
Proof.
  induction chunks as [|c r IH]; intros i x old HK HC HN HL HH.
  - cbn in HL. apply len_0_nil in HL. subst old. exists x. cbn [map concat split_out drift]. rewrite (@len_nil N), !Z.add_0_r, N.add_0_r.
    repeat split; try easy; apply HC.
  - inversion HN as [|? ? NC NR]; subst. assert (0 < len c) as LC by (destruct c; [easy|rewrite len_cons; lia]).
    cbn [concat] in HL, HH. rewrite len_app in HL. cbn [map].
    destruct old as [|o os] eqn:EO; [rewrite (@len_nil N) in HL; lia|]. rewrite <- EO in *. clear EO o os.
    assert (xs_read_exact x old (len c :: map len r) =
      let (out, x1) := xs_read x old (len c) in
      do! q <- xs_read_exact x1 (dropN (len c) out) (map len r); Ok (takeN (len c) out ++ fst q, snd q)) as ->.
    { cbn [xs_read_exact]. destruct old as [|o os]; [rewrite (@len_nil N) in HL; lia|]. now replace (len c =? 0) with false by lia. }
    unfold xs_read. apply has_app in HH as [HH1 HH2].
    assert (takeN (len c) (dropN (xs_pos x) (xs_buf x)) = c) as ->.
    { destruct HH1 as (pre & post & -> & E). unfold takeN, dropN. rewrite <- E. unfold len. rewrite !Nat2N.id.
      rewrite skipn_app, skipn_all, Nat.sub_diag. cbn [app skipn]. rewrite firstn_app, firstn_all, Nat.sub_diag. cbn. now rewrite app_nil_r. }
    set (tl := dropN (len c) old). assert (len tl = len (concat r)) as LT by (unfold tl; rewrite len_dropN; lia).
    destruct (xor_bytes_at key (c ++ tl) i _ HK HC) as (c' & E & HC'). rewrite E.
    set (x1 := {| xs_buf := _; xs_pos := _; xs_key := c'; xs_size := _ |}).
    rewrite xor_cycle_app.
    assert (dropN (len c) (xor_cycle key i c ++ xor_cycle key (i + Z.of_N (len c)) tl) = xor_cycle key (i + Z.of_N (len c)) tl) as ->.
    { unfold dropN. rewrite skipn_app, length_xor_cycle. unfold len. rewrite Nat2N.id, Nat.sub_diag. cbn [skipn].
      rewrite skipn_all2; [easy|]. rewrite length_xor_cycle. lia. }
    assert (takeN (len c) (xor_cycle key i c ++ xor_cycle key (i + Z.of_N (len c)) tl) = xor_cycle key i c) as ->.
    { unfold takeN. rewrite firstn_app, length_xor_cycle. unfold len. rewrite Nat2N.id, Nat.sub_diag. cbn [firstn]. rewrite app_nil_r.
      apply firstn_all2. rewrite length_xor_cycle. lia. }
    rewrite len_app, LT in HC'.
    destruct (IH (i + Z.of_N (len c + len (concat r)))%Z x1 (xor_cycle key (i + Z.of_N (len c)) tl) HK HC' NR) as (x' & E' & B1 & B2 & B3 & B4).
    { now rewrite len_xor_cycle. }
    { exact HH2. }
    exists x'. rewrite E'. cbn [res_bind fst snd split_out concat drift]. split; [|split; [easy|split; [|split; [easy|]]]].
    + do 4 f_equal. lia.
    + rewrite B2. unfold x1. cbn [xs_pos]. rewrite len_app. lia.
    + eapply cyc_at_congr; [|exact B4]. f_equal. rewrite len_app. lia.
Qed.
Lemma split_out_one key i c : split_out key i [c] = xor_cycle key i c.
Proof. cbn. now rewrite app_nil_r. Qed.
Lemma xor_cycle_shift key w : forall c b,
  (forall j, (0 <= j < Z.of_N (len c))%Z -> key_at key (b + j) = key_at key (b + w + j)) ->
  xor_cycle key (b + w) c = xor_cycle key b c.
Proof.
  induction c as [|y c IH]; intros b H; [easy|]. cbn [xor_cycle]. rewrite len_cons in H. f_equal.
  - f_equal. specialize (H 0%Z). rewrite !Z.add_0_r in H. symmetry. apply H. lia.
  - replace (b + w + 1)%Z with (b + 1 + w)%Z by lia. apply IH. intros j Hj.
    replace (b + 1 + j)%Z with (b + (j + 1))%Z by lia. replace (b + 1 + w + j)%Z with (b + w + (j + 1))%Z by lia. apply H. lia.
Qed.
Lemma split_out_two key i c1 c2 : key <> [] ->
  (split_out key i [c1; c2] = xor_cycle key i (c1 ++ c2) <->
   forall j, (0 <= j < Z.of_N (len c2))%Z ->
     key_at key (i + Z.of_N (len c1) + j) = key_at key (i + Z.of_N (len c1) + Z.of_N (len c2) + j)).
Proof.
  intro HK. cbn [split_out concat]. rewrite !app_nil_r, xor_cycle_app.
  generalize (i + Z.of_N (len c1))%Z as b. intro b. split.
  - intros E. apply app_inv_head in E. intros j Hj.
    assert (nth (Z.to_nat j) (xor_cycle key (b + Z.of_N (len c2)) c2) 0 = nth (Z.to_nat j) (xor_cycle key b c2) 0) as EN by now rewrite E.
    rewrite !xor_cycle_nth in EN by (unfold len in Hj; lia).
    assert (forall p q r, N.lxor p q = N.lxor p r -> q = r) as XI.
    { intros p q r X. apply (f_equal (N.lxor p)) in X. now rewrite <- !N.lxor_assoc, N.lxor_nilpotent, !N.lxor_0_l in X. }
    apply XI in EN. rewrite !Z2Nat.id in EN by lia. now symmetry.
  - intro H. f_equal. now apply xor_cycle_shift.
Qed.
