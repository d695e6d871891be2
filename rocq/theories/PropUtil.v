(** * Property C60: alignment, reading and writing at offsets *)
From Coq Require Import NArith ZArith List Bool Lia.
From Coq Require Import ZifyBool ZifyNat ZifyN.
From Verif Require Import Base BaseFacts Segs Str Schema Oa Rows Page Util.
Import ListNotations.
Open Scope N_scope.

(** C60.  [align_by] gives the least multiple of the alignment that is not below the offset, if it fits 64 bits. *)
Definition least_multiple (a o m : N) : Prop := (a | m) /\ o <= m /\ forall k, (a | k) -> o <= k -> m <= k.
Lemma least_multiple_of a o : a <> 0 -> least_multiple a o (if o mod a =? 0 then o else o + (a - o mod a)).
Proof.
  intro H. pose proof (N.div_mod o a H). pose proof (N.mod_lt o a H). destruct (o mod a =? 0) eqn:E.
  - split; [exists (o / a); lia|]. split; [lia|easy].
  - split; [exists (o / a + 1); lia|]. split; [lia|]. intros k [q ->] L. assert (o / a + 1 <= q); [|nia].
    assert (o / a < q); [|lia]. destruct (N.ltb_spec (o / a) q); [easy|]. assert (q * a <= (o / a) * a) by now apply N.mul_le_mono_r. lia.
Qed.
Theorem c60_align : forall b a o, 0 < a < 2 ^ 64 -> o < 2 ^ 64 -> exists m, least_multiple a o m /\
  align_by b a o = (if m <? 2 ^ 64 then Ok m else match b with Debug => Panic | Release => Ok (m - 2 ^ 64) end).
Proof.
  intros b a o [H1 H2] H3. eexists. split; [apply least_multiple_of; lia|]. unfold align_by, is_multiple_of.
  replace (a =? 0) with false by lia. destruct (o mod a =? 0) eqn:E; [now replace (o <? 2 ^ 64) with true by lia|].
  assert (a <> 0) as A by lia. pose proof (N.mod_lt o a A). unfold wsub. replace (o mod a <=? a) with true by lia. cbn [res_bind]. unfold wadd, ovf.
  destruct (o + (a - o mod a) <? 2 ^ 64) eqn:E2; [easy|]. destruct b; [easy|]. f_equal.
  set (x := o + (a - o mod a)) in *. assert (x < 2 * 2 ^ 64) by lia. clearbody x.
  replace x with (x - 2 ^ 64 + 1 * 2 ^ 64) at 1 by lia. rewrite N.mod_add by easy. apply N.mod_small. lia.
Qed.
Print Assumptions c60_align.
(** An alignment of zero panics, except at zero. *)
Theorem c60_align_zero : forall b o, align_by b 0 o = (if o =? 0 then Ok 0 else Panic).
Proof. intros b o. unfold align_by, is_multiple_of. cbn. destruct (N.eqb_spec o 0); now subst. Qed.
Print Assumptions c60_align_zero.
Example c60_align_example : least_multiple 8 13 16 /\ align_by Debug 8 13 = Ok 16 /\ align_by Debug 8 (2 ^ 64 - 3) = Panic.
Proof. split; [exact (least_multiple_of 8 13 ltac:(easy))|split; reflexivity]. Qed.

(** Reading at offsets succeeds iff there is a value at each offset, as seen from the position at the start.  It returns these values in order and
    the position is the one at the start. *)
Definition value_at {O V} (into : O -> seekfrom) (p : parser V) (buf : list N) (pos : N) (o : O) (v : V) : Prop :=
  exists t q, target (into o) (len buf) pos = Some t /\ p buf t = Ok (v, q).
Definition failure_at {O V} (into : O -> seekfrom) (p : parser V) (buf : list N) (pos : N) (o : O) (r : res unit) : Prop :=
  match target (into o) (len buf) pos with
  | None => r = Err EIo
  | Some t => match p buf t with Ok _ => False | Err e => r = Err e | Panic => r = Panic end
  end.
Lemma parse_step {O V} (into : O -> seekfrom) (p : parser V) base o os buf :
  (exists v, value_at into p buf base o v /\
     parse_loop into p base (o :: os) buf base = (do! (l, q) <- parse_loop into p base os buf base; Ok ((o, v) :: l, q))) \/
  (exists r, failure_at into p buf base o r /\ parse_loop into p base (o :: os) buf base = (do! _ <- r; Panic) /\ r <> Ok tt).
Proof.
  cbn [parse_loop]. unfold bind, seek, failure_at, value_at. destruct (target (into o) (len buf) base) as [t|]; [|right; now exists (Err EIo)].
  destruct (p buf t) as [[v q]|e|] eqn:E.
  - left. exists v. split; [now exists t, q|]. cbn [target]. now destruct (parse_loop into p base os buf base) as [[? ?]| |].
  - right. now exists (Err e).
  - right. now exists Panic.
Qed.
Lemma value_not_failure {O V} (into : O -> seekfrom) (p : parser V) buf pos o v r : value_at into p buf pos o v -> failure_at into p buf pos o r -> False.
Proof. unfold value_at, failure_at. intros (t & q & -> & ->). easy. Qed.
Lemma value_unique {O V} (into : O -> seekfrom) (p : parser V) buf pos o v v' : value_at into p buf pos o v -> value_at into p buf pos o v' -> v = v'.
Proof. unfold value_at. intros (t & q & A & B) (t' & q' & C & D). congruence. Qed.
Theorem c60_parse : forall O V (into : O -> seekfrom) (p : parser V) os buf pos l pos',
  parse_at_offsets into p os buf pos = Ok (l, pos') <->
  pos' = pos /\ map fst l = os /\ Forall (fun x => value_at into p buf pos (fst x) (snd x)) l.
Proof.
  intros O V into p os buf pos. unfold parse_at_offsets. change (bind tell (fun base => parse_loop into p base os) buf pos) with (parse_loop into p pos os buf pos).
  induction os as [|o os IH]; intros l pos'.
  - cbn. split; [intros [= <- <-]; auto|]. intros (-> & E & _). now apply map_eq_nil in E as ->.
  - destruct (parse_step into p pos o os buf) as [(v & HV & ->)|(r & HF & -> & HR)].
    + split.
      * destruct (parse_loop into p pos os buf pos) as [[l0 q]| |]; [|easy|easy]. cbn. intros [= <- <-]. destruct (IH l0 q) as [I _].
        destruct (I eq_refl) as (-> & <- & A). cbn. auto.
      * intros (-> & E & A). destruct l as [|[o' v'] l]; [easy|]. cbn in E. injection E as -> E2. inversion A as [|? ? A1 A2]; subst. cbn [fst snd] in *.
        rewrite (proj2 (IH l pos)) by auto. cbn. now rewrite (value_unique _ _ _ _ _ _ _ HV A1).
    + split; [destruct r as [[]| |]; easy|]. intros (_ & E & A). destruct l as [|[o' v'] l]; [easy|]. cbn in E. injection E as -> E2.
      inversion A as [|? ? A1 A2]; subst. now destruct (value_not_failure _ _ _ _ _ _ _ A1 HF).
Qed.
Print Assumptions c60_parse.
(** Otherwise the result is the failure at the first offset without a value. *)
Theorem c60_parse_error : forall O V (into : O -> seekfrom) (p : parser V) os buf pos r, r <> Ok tt ->
  (do! _ <- parse_at_offsets into p os buf pos; Ok tt) = r <->
  exists before o after, os = before ++ o :: after /\ Forall (fun o' => exists v, value_at into p buf pos o' v) before /\ failure_at into p buf pos o r.
Proof.
  intros O V into p os buf pos r NR. unfold parse_at_offsets. change (bind tell (fun base => parse_loop into p base os) buf pos) with (parse_loop into p pos os buf pos).
  induction os as [|o os IH]; [split; [now intros <-|]; now intros (? & ? & ? & E & _); apply app_cons_not_nil in E|].
  destruct (parse_step into p pos o os buf) as [(v & HV & ->)|(r0 & HF & -> & HR)].
  - transitivity ((do! _ <- parse_loop into p pos os buf pos; Ok tt) = r); [now destruct (parse_loop into p pos os buf pos) as [[? ?]| |]|]. rewrite IH. split.
    + intros (bf & o' & af & -> & A & B). exists (o :: bf), o', af. split; [easy|]. split; [|easy]. constructor; eauto.
    + intros (bf & o' & af & E & A & B). destruct bf as [|o1 bf]; cbn in E; injection E as <- E.
      * now destruct (value_not_failure _ _ _ _ _ _ _ HV B).
      * inversion A; subst. exists bf, o', af. auto.
  - assert ((do! _ <- (do! _ <- r0; (Panic : res (list (O * V) * N))); Ok tt) = r0) as -> by now destruct r0 as [[]| |]. split.
    + intros <-. exists [], o, os. auto.
    + intros (bf & o' & af & E & A & B). destruct bf as [|o1 bf]; cbn in E; injection E as <- E.
      * unfold failure_at in *. destruct (target (into o) (len buf) pos); [|congruence]. destruct (p buf n); [easy|congruence|congruence].
      * inversion A as [|? ? [v' A1] A2]; subst. now destruct (value_not_failure _ _ _ _ _ _ _ A1 HF).
Qed.
Print Assumptions c60_parse_error.

(** Writing at offsets.  If the writer of a value stores its bytes, the bytes of all values are stored at their offsets, the position is restored,
    other bytes are left as they were, and disjoint values are read back by each reader that reads a value wherever its bytes are. *)
Theorem c60_write : forall O V (into : O -> seekfrom) (w : V -> writer) (enc : V -> list N) (p : parser V) l buf pos,
  (forall v b t, w v (b, t) = Ok (write_at b t (enc v), t + len (enc v))) ->
  (forall v b t, In v (map snd l) -> has b t (enc v) -> exists q, p b t = Ok (v, q)) ->
  Forall (fun x => enc (snd x) <> []) l ->
  forall (at_ : O -> N), (forall o size, In o (map fst l) -> target (into o) size pos = Some (at_ o)) ->
  segs_disj (map (fun x => (at_ (fst x), enc (snd x))) l) ->
  exists buf', write_at_offsets into w l (buf, pos) = Ok (buf', pos) /\ parse_at_offsets into p (map fst l) buf' pos = Ok (l, pos) /\
    forall i, i < len buf -> Forall (fun x => ~ (at_ (fst x) <= i < at_ (fst x) + len (enc (snd x)))) l -> getN buf' i = getN buf i.
Proof.
  intros O V into w enc p l buf pos HW HP HN at_ HT HD. set (segs := map (fun x => (at_ (fst x), enc (snd x))) l) in *. exists (write_segs buf segs). split; [|split].
  - unfold write_at_offsets. cbn [snd]. clear HP HN HD. unfold segs. clear segs. revert buf. induction l as [|[o v] l IH]; intro buf; [reflexivity|].
    cbn [write_loop map write_segs fst snd]. unfold wr_seq at 1. cbn [w_seek]. rewrite (HT o) by now left. cbn [res_bind]. unfold wr_seq at 1. rewrite HW. cbn [res_bind].
    unfold wr_seq at 1. cbn [w_seek target res_bind]. apply IH. intros o' size I. apply HT. now right.
  - apply c60_parse. split; [easy|]. split; [easy|]. apply Forall_forall. intros [o v] I. cbn [fst snd].
    assert (segs_in (write_segs buf segs) segs) as S. { apply write_segs_in; [easy|]. apply Forall_map. eapply Forall_impl; [|exact HN]. cbn. auto. }
    unfold segs_in in S. rewrite Forall_forall in S. specialize (S (at_ o, enc v)). cbn [fst snd] in S.
    destruct (HP v (write_segs buf segs) (at_ o)) as [q Q]; [now apply (in_map snd) in I| |].
    + apply S. unfold segs. now apply (in_map (fun x => (at_ (fst x), enc (snd x)))) in I.
    + exists (at_ o), q. split; [|easy]. apply HT. now apply (in_map fst) in I.
  - intros i Hi HF. apply write_segs_frame; [easy|]. intro C. unfold covered, segs in C. apply Exists_exists in C as (s & I & C). apply in_map_iff in I as (x & <- & I).
    rewrite Forall_forall in HF. now apply (HF x I).
Qed.
Print Assumptions c60_write.

Definition ex_into (o : N) : seekfrom := SCurrent (Z.of_N o).
Example c60_offsets_example : let w v := wr_bytes (le_enc 2 v) in
  write_at_offsets ex_into w [(4, 513); (0, 770)] ([9; 9; 9; 9; 9], 1) = Ok ([9; 2; 3; 9; 9; 1; 2], 1) /\
  parse_at_offsets ex_into (rd_le 2) [4; 0] [9; 2; 3; 9; 9; 1; 2] 1 = Ok ([(4, 513); (0, 770)], 1) /\
  parse_at_offsets ex_into (rd_le 2) [4; 5] [9; 2; 3; 9; 9; 1; 2] 1 = Err EIo.
Proof. vm_compute. auto. Qed.

(** The rows of a page are read and written with these functions, at offsets relative to the start of the heap. *)
Theorem c60_page_rows_read : forall rs pt base os buf,
  rd_rows_at rs pt base os [] buf = (do! (l, _) <- parse_at_offsets ex_into (rd_row rs pt) os buf base; Ok (to_map l)).
Proof.
  intros rs pt base os buf. unfold parse_at_offsets, to_map. change (bind tell (fun b0 => parse_loop ex_into (rd_row rs pt) b0 os) buf base) with (parse_loop ex_into (rd_row rs pt) base os buf base).
  generalize (@nil (N * row)). induction os as [|o os IH]; intro acc; [reflexivity|]. cbn [rd_rows_at parse_loop]. unfold bind at 1. unfold seek, ex_into at 1. cbn [target]. unfold signed.
  replace (Z.of_N base + Z.of_N o <? 0)%Z with false by lia. replace (Z.to_N (Z.of_N base + Z.of_N o)) with (base + o) by lia. unfold bind at 1.
  destruct (rd_row rs pt buf (base + o)) as [[r q]| |]; [|easy|easy]. unfold bind at 1. cbn [target]. rewrite IH. unfold bind at 1.
  now destruct (parse_loop ex_into (rd_row rs pt) base os buf base) as [[l q']| |].
Qed.
Print Assumptions c60_page_rows_read.
Theorem c60_page_rows_write : forall b base rows buf,
  wr_rows_at b base rows (buf, base) = write_at_offsets ex_into (row_write b) rows (buf, base).
Proof.
  intros b base rows. unfold write_at_offsets. cbn [snd]. induction rows as [|[o r] rows IH]; intro buf; [reflexivity|].
  cbn [wr_rows_at write_loop wr_seek res_bind]. unfold wr_seq at 1, w_seek at 1. unfold ex_into at 1. cbn [target]. unfold signed.
  replace (Z.of_N base + Z.of_N o <? 0)%Z with false by lia. replace (Z.to_N (Z.of_N base + Z.of_N o)) with (base + o) by lia. cbn [res_bind]. unfold wr_seq at 1.
  destruct (row_write b r (buf, base + o)) as [[buf' q]| |]; [|easy|easy]. cbn [res_bind wr_seek]. unfold wr_seq at 1. cbn [w_seek target res_bind]. apply IH.
Qed.
Print Assumptions c60_page_rows_write.

(** [try_map_polyfill] calls the function for all the items, in order and also after an error; it gives all the values, or the first error.  It never panics. *)
Inductive calls {T U E S} (f : T -> S -> (U + E) * S) : list T -> S -> list (U + E) -> S -> Prop :=
| calls_nil : forall s, calls f [] s [] s
| calls_cons : forall x l s y s1 ys s2, f x s = (y, s1) -> calls f l s1 ys s2 -> calls f (x :: l) s (y :: ys) s2.
Theorem c60_try_map : forall T U E S (f : T -> S -> (U + E) * S) l s, exists ys s', calls f l s ys s' /\
  ((exists vs, ys = map inl vs /\ try_map f l s = (Some (inl vs), s')) \/
   (exists vs e rest, ys = map inl vs ++ inr e :: rest /\ try_map f l s = (Some (inr e), s'))).
Proof.
  intros T U E S f l s. assert (let '(ys, s') := array_map f l s in calls f l s ys s') as C.
  { revert s. induction l as [|x l IH]; intro s; cbn [array_map]; [constructor|]. destruct (f x s) as [y s1] eqn:Ef. specialize (IH s1).
    destruct (array_map f l s1) as [ys s2]. econstructor; eauto. }
  unfold try_map. destruct (array_map f l s) as [ys s']. exists ys, s'. split; [easy|]. clear C.
  assert ((exists vs, ys = map inl vs /\ existsb is_err ys = false /\ unpack ys = Some vs) \/
          (exists vs e rest, ys = map inl vs ++ inr e :: rest /\ existsb is_err ys = true /\ find_err ys = Some e)) as [(vs & A & B & D)|(vs & e & rest & A & B & D)].
  { induction ys as [|[u|e] ys IH]; [left; now exists []| |right; now exists [], e, ys].
    destruct IH as [(vs & A & B & D)|(vs & e & rest & A & B & D)]; cbn.
    - left. exists (u :: vs). rewrite D. cbn. now rewrite <- A.
    - right. exists (u :: vs), e, rest. cbn. now rewrite <- A. }
  - left. exists vs. now rewrite B, D.
  - right. exists vs, e, rest. now rewrite B, D.
Qed.
Print Assumptions c60_try_map.
Theorem c60_zip : forall T U (l : list T) (l' : list U), length l = length l' -> exists ps, zip l l' = Some ps /\ map fst ps = l /\ map snd ps = l'.
Proof.
  intros T U l. unfold zip.
  induction l as [|x l IH]; intros [|y l'] H; try easy; [now exists []|]. cbn [length seq map fold_right nth_error].
  rewrite <- seq_shift, map_map. cbn [nth_error]. destruct (IH l' (eq_add_S _ _ H)) as (ps & -> & A & B). exists ((x, y) :: ps). cbn. now rewrite A, B.
Qed.
Print Assumptions c60_zip.
Example c60_arrays_example : let f x s := (if x <? 3 then inl (x + s) else inr x, s + 1) in
  try_map f [1; 2] 10 = (Some (inl [11; 13]), 12) /\ try_map f [1; 5; 7; 2] 10 = (Some (inr 5), 14) /\ zip [1; 2] [3; 4] = Some [(1, 3); (2, 4)].
Proof. vm_compute. auto. Qed.
