(** * Facts about the primitives of Base. *)
From Coq Require Import NArith ZArith List Bool Lia Arith.
From Coq Require Import ZifyBool ZifyNat ZifyN.
From Verif Require Import Base.
Import ListNotations.
Open Scope N_scope.
Ltac Zify.zify_post_hook ::= Z.div_mod_to_equations.

(** ** Lists indexed by N *)
Lemma len_nil {A} : len (@nil A) = 0. Proof. reflexivity. Qed.
Lemma len_cons {A} (a : A) l : len (a :: l) = 1 + len l.
Proof. unfold len; simpl length; lia. Qed.
Lemma len_app {A} (a b : list A) : len (a ++ b) = len a + len b.
Proof. unfold len; rewrite app_length; lia. Qed.
Lemma len_rev {A} (a : list A) : len (rev a) = len a.
Proof. unfold len; now rewrite rev_length. Qed.
Lemma len_map {A B} (f : A -> B) l : len (map f l) = len l.
Proof. unfold len; now rewrite map_length. Qed.
Lemma len_zeros n : len (zeros n) = n.
Proof. unfold len, zeros; rewrite repeat_length; lia. Qed.
Lemma len_takeN {A} n (l : list A) : len (takeN n l) = N.min n (len l).
Proof. unfold len, takeN; rewrite firstn_length; lia. Qed.
Lemma len_dropN {A} n (l : list A) : len (dropN n l) = len l - n.
Proof. unfold len, dropN; rewrite skipn_length; lia. Qed.
Lemma len_0_nil {A} (l : list A) : len l = 0 -> l = [].
Proof. destruct l; [easy|rewrite len_cons; lia]. Qed.
Lemma len_pad_to n buf : len (pad_to n buf) = N.max n (len buf).
Proof. unfold pad_to; rewrite len_app, len_zeros; lia. Qed.
Global Hint Rewrite @len_nil @len_cons @len_app @len_rev @len_map len_zeros @len_takeN @len_dropN len_pad_to : len.

Lemma getN_app {A} (a b : list A) i :
  getN (a ++ b) i = if i <? len a then getN a i else getN b (i - len a).
Proof.
  unfold getN, len. destruct (i <? N.of_nat (length a)) eqn:E.
  - rewrite nth_error_app1 by lia; reflexivity.
  - rewrite nth_error_app2 by lia. f_equal; lia.
Qed.
Lemma getN_None {A} (l : list A) i : getN l i = None <-> len l <= i.
Proof. unfold getN, len; rewrite nth_error_None; lia. Qed.
Lemma getN_Some_lt {A} (l : list A) i x : getN l i = Some x -> i < len l.
Proof.
  intro H. destruct (N.lt_ge_cases i (len l)) as [L|L]; [easy|].
  apply getN_None in L; congruence.
Qed.
Lemma getN_lt_Some {A} (l : list A) i : i < len l -> exists x, getN l i = Some x.
Proof.
  intro L. destruct (getN l i) as [x|] eqn:E; [eauto|]. apply getN_None in E; lia.
Qed.
Lemma nth_error_firstn_lt {A} n (l : list A) i : (i < n)%nat -> nth_error (firstn n l) i = nth_error l i.
Proof. revert l i; induction n; intros [|a l] [|i] H; simpl; try easy; try lia. apply IHn; lia. Qed.
Lemma nth_error_skipn' {A} n (l : list A) i : nth_error (skipn n l) i = nth_error l (n + i).
Proof. revert l; induction n; intros l; simpl; [easy|]. destruct l; simpl; [now destruct i|apply IHn]. Qed.
Lemma getN_takeN {A} n (l : list A) i : getN (takeN n l) i = if i <? n then getN l i else None.
Proof.
  destruct (i <? n) eqn:E.
  - unfold getN, takeN; apply nth_error_firstn_lt; lia.
  - apply getN_None. rewrite len_takeN; lia.
Qed.
Lemma getN_dropN {A} n (l : list A) i : getN (dropN n l) i = getN l (n + i).
Proof. unfold getN, dropN. rewrite nth_error_skipn'. f_equal; lia. Qed.
Lemma getN_zeros n i : getN (zeros n) i = if i <? n then Some 0 else None.
Proof.
  destruct (i <? n) eqn:E.
  - unfold getN, zeros. apply nth_error_repeat. lia.
  - apply getN_None. rewrite len_zeros; lia.
Qed.
Lemma getN_0 {A} (a : A) l : getN (a :: l) 0 = Some a. Proof. reflexivity. Qed.
Lemma getN_cons {A} (a : A) l i : getN (a :: l) i = if i =? 0 then Some a else getN l (i - 1).
Proof.
  destruct (i =? 0) eqn:E.
  - now replace i with 0 by lia.
  - unfold getN. replace (N.to_nat i) with (S (N.to_nat (i - 1))) by lia. reflexivity.
Qed.

Lemma list_ext {A} (l1 l2 : list A) :
  (forall i, getN l1 i = getN l2 i) -> l1 = l2.
Proof.
  revert l2; induction l1 as [|a l1 IH]; intros [|b l2] H; try easy.
  - specialize (H 0); discriminate.
  - specialize (H 0); discriminate.
  - f_equal. { specialize (H 0); unfold getN in H; simpl in H; congruence. }
    apply IH. intro i. specialize (H (i + 1)). rewrite !getN_cons in H.
    replace (i + 1 =? 0) with false in H by lia. now replace (i + 1 - 1) with i in H by lia.
Qed.

Lemma takeN_app {A} n (a b : list A) : n = len a -> takeN n (a ++ b) = a.
Proof.
  intros ->. unfold takeN, len. rewrite Nnat.Nat2N.id, firstn_app, Nat.sub_diag, firstn_O, app_nil_r.
  apply firstn_all.
Qed.
Lemma dropN_app {A} n (a b : list A) : n = len a -> dropN n (a ++ b) = b.
Proof.
  intros ->. unfold dropN, len. rewrite Nnat.Nat2N.id, skipn_app, Nat.sub_diag, skipn_all. reflexivity.
Qed.
Lemma takeN_dropN {A} n (l : list A) : takeN n l ++ dropN n l = l.
Proof. apply firstn_skipn. Qed.
Lemma takeN_all {A} n (l : list A) : len l <= n -> takeN n l = l.
Proof. intro. apply firstn_all2. unfold len in *; lia. Qed.
Lemma dropN_0 {A} (l : list A) : dropN 0 l = l. Proof. reflexivity. Qed.
Lemma dropN_all {A} n (l : list A) : len l <= n -> dropN n l = [].
Proof. intro. apply skipn_all2. unfold len in *; lia. Qed.

(** ** has *)
Lemma has_get buf pos bs :
  has buf pos bs <-> pos <= len buf /\ forall i, i < len bs -> getN buf (pos + i) = getN bs i.
Proof.
  split.
  - intros (pre & post & -> & <-). split. { autorewrite with len; lia. }
    intros i Hi. rewrite getN_app. replace (len pre + i <? len pre) with false by lia.
    rewrite getN_app. replace (len pre + i - len pre) with i by lia. now replace (i <? len bs) with true by lia.
  - intros [L H]. exists (takeN pos buf), (dropN (pos + len bs) buf). split.
    + apply list_ext; intro i. rewrite !getN_app, getN_takeN, getN_dropN, len_takeN.
      replace (N.min pos (len buf)) with pos by lia.
      destruct (i <? pos) eqn:E1; [easy|].
      destruct (i - pos <? len bs) eqn:E2.
      * rewrite <- H by lia. f_equal; lia.
      * f_equal; lia.
    + rewrite len_takeN; lia.
Qed.

Lemma has_len buf pos bs : has buf pos bs -> pos + len bs <= len buf.
Proof. intros (pre & post & -> & <-). autorewrite with len; lia. Qed.

Lemma has_app buf pos a b :
  has buf pos (a ++ b) <-> has buf pos a /\ has buf (pos + len a) b.
Proof.
  split.
  - intros (pre & post & -> & <-). split.
    + exists pre, (b ++ post). now rewrite <- app_assoc.
    + exists (pre ++ a), post. rewrite <- !app_assoc, len_app. easy.
  - intros [Ha Hb]. apply has_get in Ha; apply has_get in Hb. apply has_get.
    destruct Ha as [La Ha], Hb as [Lb Hb]. split; [easy|]. intros i Hi. rewrite getN_app.
    destruct (i <? len a) eqn:E.
    + apply Ha; lia.
    + rewrite <- Hb by (rewrite len_app in Hi; lia). f_equal; lia.
Qed.

Lemma has_nil buf pos : has buf pos [] <-> pos <= len buf.
Proof. rewrite has_get. split; [easy|]. intro; split; [easy|]. intros i Hi. rewrite len_nil in Hi; lia. Qed.

Lemma has_cons buf pos b bs :
  has buf pos (b :: bs) <-> getN buf pos = Some b /\ has buf (pos + 1) bs.
Proof.
  change (b :: bs) with ([b] ++ bs). rewrite has_app. change (len [b]) with 1.
  rewrite (has_get buf pos [b]). split.
  - intros [[L H] Hb]. split; [|easy]. specialize (H 0). rewrite N.add_0_r in H. apply H. reflexivity.
  - intros [H Hb]. split; [|easy]. split. { apply getN_Some_lt in H; lia. }
    intros i Hi. assert (i = 0) as -> by (unfold len in Hi; simpl in Hi; lia). now rewrite N.add_0_r.
Qed.

Lemma has_take_drop buf pos n : pos + n <= len buf -> has buf pos (takeN n (dropN pos buf)).
Proof.
  intro L. apply has_get. split; [lia|]. intros i Hi. rewrite getN_takeN, getN_dropN.
  rewrite len_takeN in Hi. now replace (i <? n) with true by lia.
Qed.

Lemma has_bytes_ok buf pos bs : bytes_ok buf -> has buf pos bs -> bytes_ok bs.
Proof.
  unfold bytes_ok. intros Hb (pre & post & -> & _). apply Forall_app in Hb as [_ Hb].
  apply Forall_app in Hb as [Hb _]. easy.
Qed.

Lemma list_eqb_eq l1 l2 : list_eqb l1 l2 = true <-> l1 = l2.
Proof.
  revert l2; induction l1 as [|a l1 IH]; intros [|b l2]; simpl; try easy.
  rewrite andb_true_iff, N.eqb_eq, IH. split; [intros [-> ->]; easy|intros [= -> ->]; easy].
Qed.
Lemma list_eqb_refl l : list_eqb l l = true. Proof. now apply list_eqb_eq. Qed.

Lemma hasb_has buf pos bs : hasb buf pos bs = true <-> has buf pos bs.
Proof.
  unfold hasb. rewrite andb_true_iff, list_eqb_eq. split.
  - intros [L E]. assert (len (takeN (len bs) (dropN pos buf)) = len bs) as E2 by now rewrite E.
    rewrite len_takeN, len_dropN in E2.
    destruct (N.eq_dec (len bs) 0) as [Z|Z].
    + apply len_0_nil in Z; subst. apply has_nil; lia.
    + rewrite <- E at 1. apply has_take_drop. lia.
  - intro H. pose proof (has_len _ _ _ H). split; [lia|]. destruct H as (pre & post & -> & <-).
    rewrite dropN_app by easy. now apply takeN_app.
Qed.

Lemma has_inj buf pos a b : has buf pos a -> has buf pos b -> len a = len b -> a = b.
Proof.
  intros Ha Hb E. apply hasb_has in Ha; apply hasb_has in Hb. unfold hasb in *.
  apply andb_true_iff in Ha as [_ Ha]; apply andb_true_iff in Hb as [_ Hb].
  apply list_eqb_eq in Ha; apply list_eqb_eq in Hb. congruence.
Qed.

(** ** write_at *)
Lemma getN_write_at buf pos bs i :
  bs <> [] ->
  getN (write_at buf pos bs) i =
    if i <? pos then (if i <? len buf then getN buf i else Some 0)
    else if i <? pos + len bs then getN bs (i - pos) else getN buf i.
Proof.
  intro NE. unfold write_at. destruct bs as [|b0 bs0]; [easy|]. remember (b0 :: bs0) as bs. clear Heqbs b0 bs0 NE.
  rewrite !getN_app, getN_takeN, len_takeN, len_pad_to. unfold pad_to.
  replace (N.min pos (N.max pos (len buf))) with pos by lia.
  destruct (i <? pos) eqn:E1.
  - rewrite getN_app, getN_zeros. destruct (i <? len buf) eqn:E2; [easy|].
    now replace (i - len buf <? pos - len buf) with true by lia.
  - replace (i - pos <? len bs) with (i <? pos + len bs) by lia.
    destruct (i <? pos + len bs) eqn:E2; [easy|]. rewrite getN_dropN. f_equal; lia.
Qed.

Lemma len_write_at buf pos bs :
  bs <> [] -> len (write_at buf pos bs) = N.max (len buf) (pos + len bs).
Proof.
  intro NE. unfold write_at. destruct bs as [|b0 bs0]; [easy|]. remember (b0 :: bs0) as bs.
  autorewrite with len. lia.
Qed.
Lemma write_at_nil buf pos : write_at buf pos [] = buf. Proof. reflexivity. Qed.
Lemma len_write_at_ge buf pos bs : len buf <= len (write_at buf pos bs).
Proof. destruct bs as [|b l]; [rewrite write_at_nil; lia|rewrite len_write_at by easy; lia]. Qed.

Lemma has_write_same buf pos bs : bs <> [] -> has (write_at buf pos bs) pos bs.
Proof.
  intro NE. apply has_get. rewrite len_write_at by easy. split; [lia|]. intros i Hi.
  rewrite getN_write_at by easy. replace (pos + i <? pos) with false by lia.
  replace (pos + i <? pos + len bs) with true by lia. f_equal; lia.
Qed.

Lemma has_write_same' buf pos bs : pos <= len buf -> has (write_at buf pos bs) pos bs.
Proof.
  intro L. destruct bs as [|b bs0]. { rewrite write_at_nil. now apply has_nil. } now apply has_write_same.
Qed.

Lemma has_write_other buf pos bs p xs :
  has buf p xs -> p + len xs <= pos \/ pos + len bs <= p -> has (write_at buf pos bs) p xs.
Proof.
  intros H D. destruct bs as [|b bs0]; [now rewrite write_at_nil|]. remember (b :: bs0) as bs.
  assert (NE : bs <> []) by (subst; easy). clear Heqbs b bs0.
  pose proof (has_len _ _ _ H) as L. apply has_get in H as [L1 H]. apply has_get.
  rewrite len_write_at by easy. split; [lia|]. intros i Hi. rewrite getN_write_at by easy.
  rewrite <- H by easy.
  destruct (p + i <? pos) eqn:E1. { now replace (p + i <? len buf) with true by lia. }
  now replace (p + i <? pos + len bs) with false by lia.
Qed.

Lemma write_at_id buf pos bs : has buf pos bs -> write_at buf pos bs = buf.
Proof.
  intro H. destruct bs as [|b bs0]; [easy|]. remember (b :: bs0) as bs.
  assert (NE : bs <> []) by (subst; easy). clear Heqbs b bs0.
  pose proof (has_len _ _ _ H) as L. apply has_get in H as [L1 H]. apply list_ext; intro i.
  rewrite getN_write_at by easy. destruct (i <? pos) eqn:E1.
  - now replace (i <? len buf) with true by lia.
  - destruct (i <? pos + len bs) eqn:E2; [|easy]. rewrite <- H by lia. f_equal; lia.
Qed.

Lemma write_at_app buf pos a b :
  write_at buf pos (a ++ b) = write_at (write_at buf pos a) (pos + len a) b.
Proof.
  destruct a as [|a0 a1]. { simpl. now rewrite N.add_0_r. }
  destruct b as [|b0 b1]. { now rewrite app_nil_r, write_at_nil. }
  remember (a0 :: a1) as a. remember (b0 :: b1) as b.
  assert (a <> []) by (subst; easy). assert (b <> []) by (subst; easy).
  assert (a ++ b <> []) by (subst; easy). clear Heqa Heqb.
  apply list_ext; intro i. rewrite !getN_write_at by easy. rewrite len_app, getN_app, len_write_at by easy.
  destruct (i <? pos) eqn:E1.
  - replace (i <? pos + len a) with true by lia. replace (i <? N.max (len buf) (pos + len a)) with true by lia. easy.
  - replace (i - pos <? len a) with (i <? pos + len a) by lia. destruct (i <? pos + len a) eqn:E2.
    + replace (i <? N.max (len buf) (pos + len a)) with true by lia.
      now replace (i <? pos + (len a + len b)) with true by lia.
    + replace (i <? pos + (len a + len b)) with (i <? pos + len a + len b) by lia.
      destruct (i <? pos + len a + len b); [f_equal; lia|easy].
Qed.

Lemma bytes_ok_app a b : bytes_ok (a ++ b) <-> bytes_ok a /\ bytes_ok b.
Proof. apply Forall_app. Qed.
Lemma bytes_ok_zeros n : bytes_ok (zeros n).
Proof. unfold bytes_ok, zeros. apply Forall_forall. intros x Hx. apply repeat_spec in Hx. subst; lia. Qed.
Lemma bytes_ok_takeN n l : bytes_ok l -> bytes_ok (takeN n l).
Proof. intro H. rewrite <- (takeN_dropN n l) in H. now apply bytes_ok_app in H. Qed.
Lemma bytes_ok_dropN n l : bytes_ok l -> bytes_ok (dropN n l).
Proof. intro H. rewrite <- (takeN_dropN n l) in H. now apply bytes_ok_app in H. Qed.
Lemma bytes_ok_write_at buf pos bs : bytes_ok buf -> bytes_ok bs -> bytes_ok (write_at buf pos bs).
Proof.
  intros Hb Hs. unfold write_at. destruct bs; [easy|]. apply bytes_ok_app; split.
  - apply bytes_ok_takeN. apply bytes_ok_app; split; [easy|apply bytes_ok_zeros].
  - apply bytes_ok_app; split; [easy|]. now apply bytes_ok_dropN.
Qed.
Lemma bytes_ok_get buf i v : bytes_ok buf -> getN buf i = Some v -> v < 256.
Proof. intros H G. unfold bytes_ok in H. rewrite Forall_forall in H. apply H. now apply nth_error_In in G. Qed.

(** ** Integers *)
Lemma len_le_enc n v : len (le_enc n v) = N.of_nat n.
Proof. revert v; induction n; intro v; simpl le_enc; [easy|]. rewrite len_cons, IHn; lia. Qed.
Lemma len_be_enc n v : len (be_enc n v) = N.of_nat n.
Proof. unfold be_enc. now rewrite len_rev, len_le_enc. Qed.
Global Hint Rewrite len_le_enc len_be_enc : len.

Lemma le_enc_ok n v : bytes_ok (le_enc n v).
Proof.
  revert v; induction n; intro v; simpl; [constructor|]. constructor; [|apply IHn].
  apply N.mod_lt; lia.
Qed.
Lemma be_enc_ok n v : bytes_ok (be_enc n v).
Proof. apply Forall_rev, le_enc_ok. Qed.

Lemma pow256_S n : 256 ^ N.of_nat (S n) = 256 * 256 ^ N.of_nat n.
Proof. rewrite Nnat.Nat2N.inj_succ, N.pow_succ_r'. easy. Qed.

Lemma le_dec_enc n v : v < 256 ^ N.of_nat n -> le_dec (le_enc n v) = v.
Proof.
  revert v; induction n; intros v H.
  - simpl in *. lia.
  - rewrite pow256_S in H. cbn [le_enc le_dec]. rewrite IHn.
    + pose proof (N.div_mod v 256). lia.
    + apply N.div_lt_upper_bound; lia.
Qed.
Lemma be_dec_enc n v : v < 256 ^ N.of_nat n -> be_dec (be_enc n v) = v.
Proof. intro. unfold be_dec, be_enc. rewrite rev_involutive. now apply le_dec_enc. Qed.

Lemma le_dec_bound l : bytes_ok l -> le_dec l < 256 ^ len l.
Proof.
  induction l as [|b l IH]; intro H; [reflexivity|]. inversion H; subst.
  unfold len in *. cbn [length]. rewrite pow256_S. specialize (IH H3). cbn [le_dec].
  set (P := 256 ^ N.of_nat (length l)) in *. clearbody P. lia.
Qed.
Lemma le_enc_dec l n : bytes_ok l -> length l = n -> le_enc n (le_dec l) = l.
Proof.
  revert n; induction l as [|b l IH]; intros n H <-; [easy|]. inversion H; subst. cbn [length le_enc le_dec]. f_equal.
  - rewrite N.mul_comm, N.mod_add by lia. apply N.mod_small; lia.
  - rewrite N.mul_comm, N.div_add by lia. rewrite N.div_small by lia. now apply IH.
Qed.
Lemma be_enc_dec l n : bytes_ok l -> length l = n -> be_enc n (be_dec l) = l.
Proof.
  intros H E. unfold be_enc, be_dec. rewrite le_enc_dec.
  - apply rev_involutive.
  - now apply Forall_rev.
  - now rewrite rev_length.
Qed.
Lemma be_dec_bound l : bytes_ok l -> be_dec l < 256 ^ len l.
Proof. intro. rewrite <- (len_rev l). apply le_dec_bound. now apply Forall_rev. Qed.

(** ** Readers *)
Lemma bind_ok {A B} (p : parser A) (f : A -> parser B) buf pos a pos' r :
  p buf pos = Ok (a, pos') -> f a buf pos' = r -> bind p f buf pos = r.
Proof. unfold bind. intros -> ->. easy. Qed.
Lemma bind_inv {A B} (p : parser A) (f : A -> parser B) buf pos b pos' :
  bind p f buf pos = Ok (b, pos') -> exists a p1, p buf pos = Ok (a, p1) /\ f a buf p1 = Ok (b, pos').
Proof. unfold bind. destruct (p buf pos) as [[a p1]| |]; [eauto|easy|easy]. Qed.
Lemma ret_inv {A} (a b : A) buf pos pos' : ret a buf pos = Ok (b, pos') -> a = b /\ pos = pos'.
Proof. unfold ret. now intros [= -> ->]. Qed.
Lemma guard_inv c e buf pos u pos' : guard c e buf pos = Ok (u, pos') -> c = true /\ pos = pos'.
Proof. unfold guard. destruct c; [|easy]. intro H. now apply ret_inv in H. Qed.

Lemma rd_bytes_has buf pos bs : has buf pos bs -> rd_bytes (len bs) buf pos = Ok (bs, pos + len bs).
Proof.
  intro H. pose proof (has_len _ _ _ H) as L. unfold rd_bytes. destruct (len bs =? 0) eqn:E.
  - apply N.eqb_eq in E. rewrite E, N.add_0_r. apply len_0_nil in E. now subst.
  - replace (pos + len bs <=? len buf) with true by lia. destruct H as (pre & post & -> & <-).
    rewrite dropN_app by easy. now rewrite takeN_app.
Qed.
Lemma rd_bytes_inv n buf pos bs pos' :
  rd_bytes n buf pos = Ok (bs, pos') ->
  len bs = n /\ pos' = pos + n /\ (n = 0 \/ has buf pos bs).
Proof.
  unfold rd_bytes. destruct (n =? 0) eqn:E.
  - intros [= <- <-]. apply N.eqb_eq in E. subst. rewrite len_nil. repeat split; [lia|now left].
  - destruct (pos + n <=? len buf) eqn:E2; [|easy]. intros [= <- <-].
    rewrite len_takeN, len_dropN. repeat split; [lia|]. right. apply has_take_drop. lia.
Qed.
Lemma rd_bytes_eof n buf pos : n <> 0 -> len buf < pos + n -> rd_bytes n buf pos = Err EIo.
Proof.
  intros H L. unfold rd_bytes. replace (n =? 0) with false by lia.
  now replace (pos + n <=? len buf) with false by lia.
Qed.

Lemma rd_le_has n v buf pos :
  v < 256 ^ N.of_nat n -> has buf pos (le_enc n v) -> rd_le n buf pos = Ok (v, pos + N.of_nat n).
Proof.
  intros Hv H. unfold rd_le. apply rd_bytes_has in H. rewrite len_le_enc in H.
  eapply bind_ok; [exact H|]. unfold ret. now rewrite le_dec_enc.
Qed.
Lemma rd_be_has n v buf pos :
  v < 256 ^ N.of_nat n -> has buf pos (be_enc n v) -> rd_be n buf pos = Ok (v, pos + N.of_nat n).
Proof.
  intros Hv H. unfold rd_be. apply rd_bytes_has in H. rewrite len_be_enc in H.
  eapply bind_ok; [exact H|]. unfold ret. now rewrite be_dec_enc.
Qed.
Lemma rd_le_inv n v buf pos pos' :
  n <> 0%nat -> bytes_ok buf -> rd_le n buf pos = Ok (v, pos') ->
  v < 256 ^ N.of_nat n /\ has buf pos (le_enc n v) /\ pos' = pos + N.of_nat n.
Proof.
  intros Hn Hb H. unfold rd_le in H. apply bind_inv in H as (bs & p1 & H1 & H2). apply ret_inv in H2 as [<- <-].
  apply rd_bytes_inv in H1 as (L & -> & [H|H]); [lia|].
  pose proof (has_bytes_ok _ _ _ Hb H) as Ho. pose proof (le_dec_bound _ Ho) as Hd. rewrite L in Hd.
  repeat split; [easy|]. rewrite le_enc_dec; [easy|easy|]. unfold len in L; lia.
Qed.
Lemma rd_be_inv n v buf pos pos' :
  n <> 0%nat -> bytes_ok buf -> rd_be n buf pos = Ok (v, pos') ->
  v < 256 ^ N.of_nat n /\ has buf pos (be_enc n v) /\ pos' = pos + N.of_nat n.
Proof.
  intros Hn Hb H. unfold rd_be in H. apply bind_inv in H as (bs & p1 & H1 & H2). apply ret_inv in H2 as [<- <-].
  apply rd_bytes_inv in H1 as (L & -> & [H|H]); [lia|].
  pose proof (has_bytes_ok _ _ _ Hb H) as Ho. pose proof (be_dec_bound _ Ho) as Hd. rewrite L in Hd.
  repeat split; [easy|]. rewrite be_enc_dec; [easy|easy|]. unfold len in L; lia.
Qed.

Lemma rd_u8_get buf pos v : getN buf pos = Some v -> rd_u8 buf pos = Ok (v, pos + 1).
Proof.
  intro H. unfold rd_u8, rd_le. assert (has buf pos [v]) as Hh.
  { apply has_cons; split; [easy|]. apply has_nil. apply getN_Some_lt in H; lia. }
  apply rd_bytes_has in Hh. change (len [v]) with 1 in Hh. change (N.of_nat 1) with 1.
  eapply bind_ok; [exact Hh|]. unfold ret, le_dec. do 3 f_equal. lia.
Qed.
Lemma rd_u8_none buf pos : getN buf pos = None -> rd_u8 buf pos = Err EIo.
Proof.
  intro H. apply getN_None in H. unfold rd_u8, rd_le, bind. rewrite rd_bytes_eof; [easy|lia|]. simpl; lia.
Qed.
Lemma rd_u8_inv buf pos v pos' :
  rd_u8 buf pos = Ok (v, pos') -> getN buf pos = Some v /\ pos' = pos + 1.
Proof.
  destruct (getN buf pos) as [w|] eqn:E.
  - rewrite (rd_u8_get _ _ _ E). now intros [= -> ->].
  - rewrite (rd_u8_none _ _ E). easy.
Qed.

(** Whatever a reader of base values does, its failures are errors, not panics. *)
Lemma rd_bytes_no_panic n buf pos : rd_bytes n buf pos <> Panic.
Proof. unfold rd_bytes. destruct (n =? 0), (pos + n <=? len buf); easy. Qed.
Lemma rd_le_no_panic n buf pos : rd_le n buf pos <> Panic.
Proof.
  unfold rd_le, bind. pose proof (rd_bytes_no_panic (N.of_nat n) buf pos).
  destruct (rd_bytes (N.of_nat n) buf pos) as [[a p]| |]; easy.
Qed.
Lemma rd_be_no_panic n buf pos : rd_be n buf pos <> Panic.
Proof.
  unfold rd_be, bind. pose proof (rd_bytes_no_panic (N.of_nat n) buf pos).
  destruct (rd_bytes (N.of_nat n) buf pos) as [[a p]| |]; easy.
Qed.

(** ** NullString *)
Lemma rd_until0_u8_has buf : forall s fuel pos,
  Forall (fun b => b <> 0) s -> has buf pos (s ++ [0]) -> (length s < fuel)%nat ->
  rd_until0 fuel rd_u8 buf pos = Ok (s, pos + len s + 1).
Proof.
  induction s as [|b s IH]; intros fuel pos Hs H L; (destruct fuel as [|fuel]; [simpl in L; lia|]).
  - simpl in H. apply has_cons in H as [G _]. simpl. eapply bind_ok; [apply rd_u8_get, G|].
    change (0 =? 0) with true. unfold ret. do 2 f_equal. rewrite len_nil; lia.
  - inversion Hs; subst. simpl app in H. apply has_cons in H as [G H]. simpl rd_until0.
    eapply bind_ok; [apply rd_u8_get, G|]. replace (b =? 0) with false by lia.
    eapply bind_ok; [apply IH; [easy|easy|simpl in L; lia]|]. unfold ret. do 2 f_equal. rewrite len_cons; lia.
Qed.
Lemma rd_nullstring_has buf s pos :
  Forall (fun b => b <> 0) s -> has buf pos (s ++ [0]) -> rd_nullstring buf pos = Ok (s, pos + len s + 1).
Proof.
  intros Hs H. unfold rd_nullstring. apply rd_until0_u8_has; [easy|easy|].
  apply has_len in H. rewrite len_app in H. unfold len in H; simpl in H; lia.
Qed.
Lemma rd_until0_u8_inv buf : forall fuel pos s pos',
  rd_until0 fuel rd_u8 buf pos = Ok (s, pos') ->
  Forall (fun b => b <> 0) s /\ has buf pos (s ++ [0]) /\ pos' = pos + len s + 1.
Proof.
  induction fuel as [|fuel IH]; intros pos s pos' H; [easy|]. simpl in H.
  apply bind_inv in H as (b & p1 & H1 & H2). apply rd_u8_inv in H1 as [G ->].
  destruct (b =? 0) eqn:E.
  - apply ret_inv in H2 as [<- <-]. apply N.eqb_eq in E; subst. repeat split; [constructor| |].
    + simpl. apply has_cons. split; [easy|]. apply has_nil. apply getN_Some_lt in G; lia.
    + rewrite len_nil; lia.
  - apply bind_inv in H2 as (bs & p2 & H2 & H3). apply ret_inv in H3 as [<- <-].
    apply IH in H2 as (Hf & Hh & ->). repeat split.
    + constructor; [|easy]. now apply N.eqb_neq in E.
    + simpl. now apply has_cons.
    + rewrite len_cons; lia.
Qed.
Lemma rd_nullstring_inv buf pos s pos' :
  rd_nullstring buf pos = Ok (s, pos') ->
  Forall (fun b => b <> 0) s /\ has buf pos (s ++ [0]) /\ pos' = pos + len s + 1.
Proof. apply rd_until0_u8_inv. Qed.

(** The fuel used by [rd_nullstring] is enough: more fuel does not change the result. *)
Lemma rd_until0_fuel buf : forall fuel1 fuel2 pos,
  (N.to_nat (len buf - pos) < fuel1)%nat -> (N.to_nat (len buf - pos) < fuel2)%nat ->
  rd_until0 fuel1 rd_u8 buf pos = rd_until0 fuel2 rd_u8 buf pos.
Proof.
  induction fuel1 as [|f1 IH]; intros [|f2] pos L1 L2; try lia. simpl. unfold bind.
  destruct (getN buf pos) as [v|] eqn:E.
  - rewrite (rd_u8_get _ _ _ E). apply getN_Some_lt in E. destruct (v =? 0); [easy|].
    rewrite (IH f2); [easy|lia|lia].
  - now rewrite (rd_u8_none _ _ E).
Qed.
Lemma rd_until0_no_panic buf : forall fuel pos, rd_until0 fuel rd_u8 buf pos <> Panic.
Proof.
  induction fuel as [|f IH]; intro pos; simpl; [easy|]. unfold bind.
  pose proof (rd_le_no_panic 1 buf pos) as H1. change (rd_le 1) with rd_u8 in H1.
  destruct (rd_u8 buf pos) as [[v p]| |]; [|easy|easy]. destruct (v =? 0); [easy|].
  specialize (IH p). destruct (rd_until0 f rd_u8 buf p) as [[a q]| |]; easy.
Qed.
Lemma rd_nullstring_no_panic buf pos : rd_nullstring buf pos <> Panic.
Proof. apply rd_until0_no_panic. Qed.
(** It fails exactly if there is no zero byte at or behind the position. *)
Lemma rd_nullstring_ok_iff buf pos :
  (exists s p, rd_nullstring buf pos = Ok (s, p)) <-> (exists i, pos <= i /\ getN buf i = Some 0).
Proof.
  split.
  - intros (s & p & H). apply rd_nullstring_inv in H as (_ & H & _). apply has_app in H as [_ H].
    apply has_cons in H as [G _]. exists (pos + len s). split; [lia|easy].
  - intros (i & Hi & G).
    assert (forall fuel p, (N.to_nat (len buf - p) < fuel)%nat -> p <= i ->
              exists s q, rd_until0 fuel rd_u8 buf p = Ok (s, q)) as Hgen.
    { induction fuel as [|f IH]; intros p L Hp; [lia|]. simpl. unfold bind.
      assert (p < len buf) as Lp by (apply getN_Some_lt in G; lia).
      destruct (getN_lt_Some buf p Lp) as [v E]. rewrite (rd_u8_get _ _ _ E).
      destruct (v =? 0) eqn:V; [now exists [], (p + 1)|].
      assert (p <> i) by (intros ->; rewrite G in E; injection E as <-; discriminate).
      destruct (IH (p + 1)) as (s & q & ->); [lia|lia|]. now exists (v :: s), q. }
    apply Hgen; [|easy]. unfold len. lia.
Qed.

(** ** Counted sequences *)
Lemma rd_count_has {A} (enc : A -> list N) (dec : parser A) (P : A -> Prop) buf :
  (forall v pos, P v -> has buf pos (enc v) -> dec buf pos = Ok (v, pos + len (enc v))) ->
  forall l pos, Forall P l -> has buf pos (flat_map enc l) ->
    rd_count (length l) dec buf pos = Ok (l, pos + len (flat_map enc l)).
Proof.
  intro HD. induction l as [|a l IH]; intros pos HP H.
  - simpl. unfold ret, len; simpl. now rewrite N.add_0_r.
  - inversion HP as [|? ? Pa Pl]; subst. simpl flat_map in *. apply has_app in H as [H1 H2]. simpl.
    eapply bind_ok; [apply HD; eassumption|]. eapply bind_ok; [apply IH; eassumption|]. unfold ret. do 2 f_equal.
    rewrite len_app; lia.
Qed.
Lemma rd_count_inv {A} (enc : A -> list N) (dec : parser A) (P : A -> Prop) buf :
  (forall v pos pos', dec buf pos = Ok (v, pos') -> P v /\ has buf pos (enc v) /\ pos' = pos + len (enc v)) ->
  forall n l pos pos', rd_count n dec buf pos = Ok (l, pos') ->
    length l = n /\ Forall P l /\ (n = 0%nat \/ has buf pos (flat_map enc l)) /\
    pos' = pos + len (flat_map enc l).
Proof.
  intro HD. induction n as [|n IH]; intros l pos pos' H.
  - simpl in H. apply ret_inv in H as [<- <-]. repeat split; [constructor|now left|]. unfold len; simpl; lia.
  - simpl in H. apply bind_inv in H as (a & p1 & H1 & H). apply bind_inv in H as (l' & p2 & H2 & H).
    apply ret_inv in H as [<- <-]. apply HD in H1 as (P1 & H1 & ->). apply IH in H2 as (L & P2 & H2 & ->).
    simpl. repeat split; [now rewrite L|now constructor| |rewrite len_app; lia].
    right. apply has_app. split; [easy|]. destruct H2 as [->|H2]; [|easy].
    destruct l'; [|easy]. simpl. apply has_nil. apply has_len in H1. lia.
Qed.
Lemma rd_count_no_panic {A} (dec : parser A) buf :
  (forall pos, dec buf pos <> Panic) -> forall n pos, rd_count n dec buf pos <> Panic.
Proof.
  intro HD. induction n as [|n IH]; intro pos; simpl; [easy|]. unfold bind. specialize (HD pos).
  destruct (dec buf pos) as [[a p]| |]; [|easy|easy]. specialize (IH p).
  destruct (rd_count n dec buf p) as [[l q]| |]; easy.
Qed.

(** ** Writers *)
Lemma wr_bytes_seq a b s : wr_seq (wr_bytes a) (wr_bytes b) s = wr_bytes (a ++ b) s.
Proof.
  destruct s as [buf pos]. unfold wr_seq, wr_bytes, res_bind. rewrite write_at_app, len_app. rewrite N.add_assoc. reflexivity.
Qed.

(** ** Arithmetic *)
Lemma wadd_ok b w x y : x + y < 2 ^ w -> wadd b w x y = Ok (x + y).
Proof. intro. unfold wadd. now replace (x + y <? 2 ^ w) with true by lia. Qed.
Lemma wsub_ok b w x y : y <= x -> wsub b w x y = Ok (x - y).
Proof. intro. unfold wsub. now replace (y <=? x) with true by lia. Qed.
Lemma wmul_ok b w x y : x * y < 2 ^ w -> wmul b w x y = Ok (x * y).
Proof. intro. unfold wmul. now replace (x * y <? 2 ^ w) with true by lia. Qed.
