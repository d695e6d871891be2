(** * Writing several segments at given positions

    Proof vocabulary: writers that seek are shown to be equal to writing a list of segments.  No code of /repo is
    modelled here. *)
From Coq Require Import NArith ZArith List Bool Lia.
From Coq Require Import ZifyBool ZifyNat ZifyN.
From Verif Require Import Base BaseFacts.
Import ListNotations.
Open Scope N_scope.

Definition seg : Type := N * list N.
Definition seg_end (s : seg) : N := fst s + len (snd s).

Fixpoint write_segs (buf : list N) (segs : list seg) : list N :=
  match segs with [] => buf | (p, bs) :: r => write_segs (write_at buf p bs) r end.

(** Segments that have no byte position in common. *)
Definition seg_disj (a b : seg) : Prop := seg_end a <= fst b \/ seg_end b <= fst a.

(** Pairwise disjoint. *)
Fixpoint segs_disj (segs : list seg) : Prop :=
  match segs with [] => True | s :: r => Forall (seg_disj s) r /\ segs_disj r end.

(** All segments are stored in the buffer. *)
Definition segs_in (buf : list N) (segs : list seg) : Prop := Forall (fun s => has buf (fst s) (snd s)) segs.

(** Position [i] is written by some segment. *)
Definition covered (segs : list seg) (i : N) : Prop := Exists (fun s => fst s <= i < seg_end s) segs.

Lemma write_segs_app buf a b : write_segs buf (a ++ b) = write_segs (write_segs buf a) b.
Proof. revert buf; induction a as [|[p bs] a IH]; intro buf; [easy|]. cbn. now rewrite IH. Qed.

Lemma write_segs_len buf segs : len buf <= len (write_segs buf segs).
Proof.
  revert buf; induction segs as [|[p bs] r IH]; intro buf; cbn; [lia|].
  specialize (IH (write_at buf p bs)). pose proof (len_write_at_ge buf p bs). lia.
Qed.

Lemma write_segs_id buf segs : segs_in buf segs -> write_segs buf segs = buf.
Proof.
  induction segs as [|[p bs] r IH]; intro H; [easy|]. inversion H as [|? ? H1 H2]; subst. cbn.
  rewrite write_at_id by easy. now apply IH.
Qed.

Lemma has_write_segs_other buf segs p xs :
  has buf p xs -> Forall (seg_disj (p, xs)) segs -> has (write_segs buf segs) p xs.
Proof.
  revert buf; induction segs as [|[q bs] r IH]; intros buf H HD; [easy|]. inversion HD as [|? ? H1 H2]; subst. cbn.
  apply IH; [|easy]. apply has_write_other; [easy|]. unfold seg_disj, seg_end in H1; cbn in H1. lia.
Qed.

Lemma write_segs_in buf segs :
  segs_disj segs -> Forall (fun s => snd s <> [] \/ fst s <= len buf) segs -> segs_in (write_segs buf segs) segs.
Proof.
  revert buf; induction segs as [|[p bs] r IH]; intros buf HD HN; [constructor|]. cbn in HD. destruct HD as [HD1 HD2].
  inversion HN as [|? ? N1 N2]; subst. cbn in *. constructor.
  - cbn. apply has_write_segs_other; [|easy]. destruct N1 as [N1|N1]; [now apply has_write_same|now apply has_write_same'].
  - apply IH; [easy|]. apply Forall_forall. intros s Hs. rewrite Forall_forall in N2. destruct (N2 s Hs) as [X|X]; [now left|].
    right. pose proof (len_write_at_ge buf p bs). lia.
Qed.

Lemma write_segs_frame buf segs i :
  i < len buf -> ~ covered segs i -> getN (write_segs buf segs) i = getN buf i.
Proof.
  revert buf; induction segs as [|[p bs] r IH]; intros buf Hi HC; [easy|]. cbn. rewrite IH.
  - destruct bs as [|b0 bs]; [easy|]. rewrite getN_write_at by easy.
    destruct (i <? p) eqn:E1; [now replace (i <? len buf) with true by lia|].
    destruct (i <? p + len (b0 :: bs)) eqn:E2; [|easy].
    exfalso. apply HC. constructor. unfold seg_end; cbn [fst snd]. lia.
  - pose proof (len_write_at_ge buf p bs). lia.
  - intro C. apply HC. now constructor 2.
Qed.

Lemma write_segs_len_eq buf segs n :
  len buf = n -> Forall (fun s => seg_end s <= n) segs -> len (write_segs buf segs) = n.
Proof.
  revert buf; induction segs as [|[p bs] r IH]; intros buf HL H; [easy|]. inversion H as [|? ? H1 H2]; subst. cbn.
  apply IH; [|easy]. destruct bs as [|b0 bs]; [easy|]. rewrite len_write_at by easy. unfold seg_end in H1.
  cbn [fst snd] in H1. lia.
Qed.

Lemma segs_disj_app a b :
  segs_disj (a ++ b) <-> segs_disj a /\ segs_disj b /\ Forall (fun s => Forall (seg_disj s) b) a.
Proof.
  induction a as [|s a IH]; cbn; [intuition|]. rewrite IH, Forall_app. split.
  - intros [[H1 H2] (H3 & H4 & H5)]. repeat split; try easy. now constructor.
  - intros [[H1 H2] [H3 H4]]. inversion H4; subst. repeat split; easy.
Qed.

Lemma seg_disj_sym a b : seg_disj a b -> seg_disj b a.
Proof. unfold seg_disj. intuition. Qed.

Lemma bytes_ok_write_segs buf segs :
  bytes_ok buf -> Forall (fun s => bytes_ok (snd s)) segs -> bytes_ok (write_segs buf segs).
Proof.
  revert buf; induction segs as [|[p bs] r IH]; intros buf HB H; [easy|]. inversion H; subst. cbn. apply IH; [|easy].
  now apply bytes_ok_write_at.
Qed.

(** Segments within [lo, hi). *)
Definition segs_within (lo hi : N) (segs : list seg) : Prop := Forall (fun s => lo <= fst s /\ seg_end s <= hi) segs.

Lemma segs_within_disj lo hi lo' hi' a b :
  segs_within lo hi a -> segs_within lo' hi' b -> hi <= lo' \/ hi' <= lo -> Forall (fun s => Forall (seg_disj s) b) a.
Proof.
  intros HA HB H. apply Forall_forall. intros s Hs. apply Forall_forall. intros t Ht.
  unfold segs_within in *. rewrite Forall_forall in HA, HB. specialize (HA s Hs). specialize (HB t Ht).
  unfold seg_disj. destruct H; [left|right]; lia.
Qed.

Lemma segs_in_ext buf buf' lo hi segs :
  segs_in buf segs -> segs_within lo hi segs -> hi <= len buf' ->
  (forall i, lo <= i < hi -> getN buf' i = getN buf i) -> segs_in buf' segs.
Proof.
  intros H HW HL HE. unfold segs_in, segs_within in *. rewrite Forall_forall in *. intros s Hs.
  specialize (H s Hs). specialize (HW s Hs). apply has_get. apply has_get in H as [H1 H2].
  unfold seg_end in HW. split; [lia|]. intros i Hi. rewrite <- H2 by easy. apply HE. lia.
Qed.
