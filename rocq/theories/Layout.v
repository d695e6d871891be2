(** * Where values are stored

    A small specification of byte layouts, independent of the readers, and facts that connect the readers of databases with it; no code of
    /repo is modelled here. *)
From Coq Require Import NArith ZArith List Bool Lia.
From Coq Require Import ZifyBool ZifyNat ZifyN.
From Verif Require Import Base BaseFacts Str StrFacts Schema SchemaFacts Oa OaFacts Rows RowFacts Page PageFacts PageRw AllocFacts Db DbFacts.
Import ListNotations.
Open Scope N_scope.

Lemma Ok_eq {A} (x y : A) : Ok x = Ok y -> x = y.
Proof. now intros [= ->]. Qed.
Lemma lift_eq {A} (r : res A) buf pos a pos' : lift r buf pos = Ok (a, pos') -> r = Ok a /\ pos = pos'.
Proof. unfold lift. destruct r; [|easy|easy]. intro H. split; congruence. Qed.
(** The number in [w] bytes from [pos] on: least significant byte first, or last. *)
Fixpoint number (buf : list N) (pos : N) (w : nat) : option N :=
  match w with
  | O => Some 0
  | S w' => match getN buf pos, number buf (pos + 1) w' with Some a, Some x => Some (a + 256 * x) | _, _ => None end
  end.
Fixpoint number_be (buf : list N) (pos : N) (w : nat) : option N :=
  match w with
  | O => Some 0
  | S w' => match getN buf (pos + N.of_nat w'), number_be buf pos w' with Some a, Some x => Some (a + 256 * x) | _, _ => None end
  end.
Definition number_of (e : endian) : list N -> N -> nat -> option N := match e with LE => number | BE => number_be end.

Lemma number_has buf : forall bs pos, has buf pos bs -> number buf pos (length bs) = Some (le_dec bs).
Proof.
  induction bs as [|a bs IH]; intros pos H; [reflexivity|]. apply has_cons in H as [H1 H2]. cbn [number length le_dec]. now rewrite H1, (IH _ H2).
Qed.
Lemma number_be_has buf : forall bs pos, has buf pos bs -> number_be buf pos (length bs) = Some (be_dec bs).
Proof.
  intro bs. induction bs as [|a bs IH] using rev_ind; intros pos H; [reflexivity|]. apply has_app in H as [H1 H2]. apply has_cons in H2 as [H2 _].
  rewrite app_length. cbn [length]. rewrite Nat.add_1_r. cbn [number_be]. unfold be_dec. rewrite rev_app_distr. cbn [rev app le_dec].
  fold (be_dec bs). rewrite (IH _ H1). unfold len in H2. now rewrite H2.
Qed.
Lemma rd_int_number e n buf pos x p : n <> 0%nat -> rd_int e n buf pos = Ok (x, p) -> number_of e buf pos n = Some x /\ p = pos + N.of_nat n.
Proof.
  intros HN H. destruct e; cbn [rd_int number_of] in *.
  - unfold rd_le in H. apply bind_inv in H as (bs & p1 & H1 & H). apply ret_inv in H as [<- <-]. apply rd_bytes_inv in H1 as (L & -> & [Z|H]); [lia|].
    apply number_has in H. split; [|reflexivity]. now replace n with (length bs) by (unfold len in L; lia).
  - unfold rd_be in H. apply bind_inv in H as (bs & p1 & H1 & H). apply ret_inv in H as [<- <-]. apply rd_bytes_inv in H1 as (L & -> & [Z|H]); [lia|].
    apply number_be_has in H. split; [|reflexivity]. now replace n with (length bs) by (unfold len in L; lia).
Qed.
Lemma rd_le_number n buf pos x p : n <> 0%nat -> rd_le n buf pos = Ok (x, p) -> number buf pos n = Some x /\ p = pos + N.of_nat n.
Proof. exact (rd_int_number LE n buf pos x p). Qed.
Lemma rd_be_number n buf pos x p : n <> 0%nat -> rd_be n buf pos = Ok (x, p) -> number_be buf pos n = Some x /\ p = pos + N.of_nat n.
Proof. exact (rd_int_number BE n buf pos x p). Qed.
Lemma magic_le_number n m buf pos u p : n <> 0%nat -> magic_le n m buf pos = Ok (u, p) -> number buf pos n = Some m /\ p = pos + N.of_nat n.
Proof.
  intros HN H. unfold magic_le in H. apply bind_inv in H as (x & p1 & H1 & H). apply rd_le_number in H1 as [H1 ->]; [|assumption].
  apply guard_inv in H as [G <-]. apply N.eqb_eq in G. now subst.
Qed.

(** ** Field lists *)

(** The places of the numbers in a field list up to the first string, and of the constants. *)
Fixpoint places (o : N) (fs : list field) : list (N * nat) :=
  match fs with
  | [] => []
  | FInt _ n :: r | FEnum _ n _ :: r | FEnumF _ n _ :: r => (o, n) :: places (o + N.of_nat n) r
  | FMagic _ n _ :: r => places (o + N.of_nat n) r
  | FBytes n :: r => places (o + n) r
  | FStr :: _ => []
  end.
Fixpoint consts (o : N) (fs : list field) : list (N * nat * N) :=
  match fs with
  | [] => []
  | FMagic _ n m :: r => (o, n, m) :: consts (o + N.of_nat n) r
  | FStr :: _ => []
  | f :: r => consts (o + field_size f) r
  end.
(** The numbers in a list of values. *)
Definition numbers (vs : list fval) : list N :=
  flat_map (fun v => match v with VInt x | VNamed x | VOther x => [x] | _ => [] end) vs.
Definition texts (vs : list fval) : list dstr := flat_map (fun v => match v with VStr d => [d] | _ => [] end) vs.
Lemma numbers_cons v ws : numbers (v :: ws) = numbers [v] ++ numbers ws.
Proof. unfold numbers. cbn [flat_map]. now rewrite app_nil_r. Qed.
Lemma texts_cons v ws : texts (v :: ws) = texts [v] ++ texts ws.
Proof. unfold texts. cbn [flat_map]. now rewrite app_nil_r. Qed.
(** No numbers behind the first string. *)
Fixpoint numbers_first (fs : list field) : bool :=
  match fs with
  | [] => true
  | FStr :: r => forallb (fun f => match f with FStr | FMagic _ _ _ | FBytes _ => true | _ => false end) r
  | _ :: r => numbers_first r
  end.
Definition field_end (f : field) : option endian := match f with FInt e _ | FMagic e _ _ | FEnum e _ _ | FEnumF e _ _ => Some e | _ => None end.
Definition one_endian (e : endian) (fs : list field) : bool :=
  forallb (fun f => match field_end f, e with Some LE, LE | Some BE, BE | None, _ => true | _, _ => false end) fs.

Lemma rd_field_number rs f v buf pos p : field_wfb f = true -> rd_field rs f buf pos = Ok (v, p) ->
  match f with
  | FInt e n | FEnum e n _ | FEnumF e n _ => exists x, numbers [v] = [x] /\ number_of e buf pos n = Some x /\ p = pos + N.of_nat n
  | FMagic e n m => v = VUnit /\ number_of e buf pos n = Some m /\ p = pos + N.of_nat n
  | FBytes n => exists bs, v = VBytes bs /\ p = pos + n
  | FStr => exists d, v = VStr d /\ rs buf pos = Ok (d, p)
  end.
Proof.
  intros HW H. destruct f as [e n|e n m|e n codes|e n codes|n|]; cbn [rd_field field_wfb] in *.
  - apply bind_inv in H as (x & p1 & R & H). apply ret_inv in H as [<- <-]. apply rd_int_number in R as [R ->]; [|lia]. now exists x.
  - apply bind_inv in H as (x & p1 & R & H). apply bind_inv in H as (u & p2 & G & H). apply ret_inv in H as [<- <-]. apply guard_inv in G as [G <-].
    apply N.eqb_eq in G. subst x. apply rd_int_number in R as [R ->]; [|lia]. easy.
  - apply bind_inv in H as (x & p1 & R & H). apply bind_inv in H as (u & p2 & G & H). apply ret_inv in H as [<- <-]. apply guard_inv in G as [G <-].
    apply rd_int_number in R as [R ->]; [|lia]. now exists x.
  - apply bind_inv in H as (x & p1 & R & H). apply ret_inv in H as [<- <-]. apply rd_int_number in R as [R ->]; [|lia]. exists x. now destruct (mem x codes).
  - apply bind_inv in H as (x & p1 & R & H). apply ret_inv in H as [<- <-]. apply rd_bytes_inv in R as (_ & -> & _). now exists x.
  - apply bind_inv in H as (d & p1 & R & H). apply ret_inv in H as [<- <-]. now exists d.
Qed.
Lemma no_numbers rs fs : forall buf pos vs p, forallb (fun f => match f with FStr | FMagic _ _ _ | FBytes _ => true | _ => false end) fs = true ->
  fields_wfb fs = true -> rd_fields rs fs buf pos = Ok (vs, p) -> numbers vs = [].
Proof.
  induction fs as [|f fs IH]; intros buf pos vs p HF HW H; cbn [rd_fields] in H; [apply ret_inv in H as [<- _]; reflexivity|].
  cbn [forallb fields_wfb] in *. apply andb_true_iff in HF as [F1 F2]. apply andb_true_iff in HW as [W1 W2].
  apply bind_inv in H as (v & p1 & R & H). apply bind_inv in H as (ws & p2 & R2 & H). apply ret_inv in H as [<- _].
  apply rd_field_number in R; [|assumption]. rewrite numbers_cons. rewrite (IH _ _ _ _ F2 W2 R2), app_nil_r.
  destruct f; try discriminate; [destruct R as [-> _]|destruct R as (? & -> & _)|destruct R as (? & -> & _)]; reflexivity.
Qed.
Lemma fields_numbers rs e fs : forall o buf pos vs p, numbers_first fs = true -> one_endian e fs = true -> fields_wfb fs = true ->
  rd_fields rs fs buf (pos + o) = Ok (vs, p) -> Forall2 (fun q x => number_of e buf (pos + fst q) (snd q) = Some x) (places o fs) (numbers vs).
Proof.
  induction fs as [|f fs IH]; intros o buf pos vs p HF HE HW H; cbn [rd_fields] in H; [apply ret_inv in H as [<- _]; constructor|].
  cbn [one_endian forallb fields_wfb] in *. apply andb_true_iff in HE as [E1 E2]. apply andb_true_iff in HW as [W1 W2].
  apply bind_inv in H as (v & p1 & R & H). apply bind_inv in H as (ws & p2 & R2 & H). apply ret_inv in H as [<- _].
  apply rd_field_number in R; [|assumption]. rewrite numbers_cons.
  assert (forall e', field_end f = Some e' -> e' = e) as EQ by (intros e' HE'; rewrite HE' in E1; now destruct e', e).
  destruct f as [e' n|e' n m|e' n codes|e' n codes|n|]; cbn [numbers_first places field_end] in *.
  - destruct R as (x & -> & HX & ->). cbn [app]. constructor; [now rewrite <- (EQ e' eq_refl)|]. rewrite <- N.add_assoc in R2. now apply IH in R2.
  - destruct R as (-> & HX & ->). cbn [numbers flat_map app]. rewrite <- N.add_assoc in R2. now apply IH in R2.
  - destruct R as (x & -> & HX & ->). cbn [app]. constructor; [now rewrite <- (EQ e' eq_refl)|]. rewrite <- N.add_assoc in R2. now apply IH in R2.
  - destruct R as (x & -> & HX & ->). cbn [app]. constructor; [now rewrite <- (EQ e' eq_refl)|]. rewrite <- N.add_assoc in R2. now apply IH in R2.
  - destruct R as (bs & -> & ->). cbn [numbers flat_map app]. rewrite <- N.add_assoc in R2. now apply IH in R2.
  - destruct R as (d & -> & HX). apply no_numbers in R2; [|assumption|assumption]. cbn [numbers flat_map app]. fold (numbers ws). rewrite R2. constructor.
Qed.
Lemma fields_consts rs e fs : forall o buf pos vs p, one_endian e fs = true -> fields_wfb fs = true ->
  rd_fields rs fs buf (pos + o) = Ok (vs, p) -> Forall (fun '(q, w, m) => number_of e buf (pos + q) w = Some m) (consts o fs).
Proof.
  induction fs as [|f fs IH]; intros o buf pos vs p HE HW H; cbn [rd_fields] in H; [constructor|].
  cbn [one_endian forallb fields_wfb] in *. apply andb_true_iff in HE as [E1 E2]. apply andb_true_iff in HW as [W1 W2].
  apply bind_inv in H as (v & p1 & R & H). apply bind_inv in H as (ws & p2 & R2 & H). apply ret_inv in H as [<- _].
  apply rd_field_number in R; [|assumption].
  assert (forall e', field_end f = Some e' -> e' = e) as EQ by (intros e' HE'; rewrite HE' in E1; now destruct e', e).
  destruct f as [e' n|e' n m|e' n codes|e' n codes|n|]; cbn [consts field_end field_size] in *.
  - destruct R as (x & _ & HX & ->). rewrite <- N.add_assoc in R2. now apply IH in R2.
  - destruct R as (_ & HX & ->). rewrite <- N.add_assoc in R2. constructor; [now rewrite <- (EQ e' eq_refl)|]. now apply IH in R2.
  - destruct R as (x & _ & HX & ->). rewrite <- N.add_assoc in R2. now apply IH in R2.
  - destruct R as (x & _ & HX & ->). rewrite <- N.add_assoc in R2. now apply IH in R2.
  - destruct R as (bs & _ & ->). rewrite <- N.add_assoc in R2. now apply IH in R2.
  - constructor.
Qed.
(** The first string, if there is one. *)
Fixpoint text_place (o : N) (fs : list field) : option N :=
  match fs with [] => None | FStr :: _ => Some o | f :: r => text_place (o + field_size f) r end.
Lemma fields_text rs fs : forall o buf pos vs p q, fields_wfb fs = true -> rd_fields rs fs buf (pos + o) = Ok (vs, p) -> text_place o fs = Some q ->
  exists d r l, texts vs = d :: l /\ rs buf (pos + q) = Ok (d, r).
Proof.
  induction fs as [|f fs IH]; intros o buf pos vs p q HW H HT; cbn [rd_fields] in H; [discriminate|].
  cbn [forallb fields_wfb] in *. apply andb_true_iff in HW as [W1 W2].
  apply bind_inv in H as (v & p1 & R & H). apply bind_inv in H as (ws & p2 & R2 & H). apply ret_inv in H as [<- _].
  apply rd_field_number in R; [|assumption]. rewrite texts_cons.
  destruct f as [e' n|e' n m|e' n codes|e' n codes|n|]; cbn [text_place field_size] in *.
  - destruct R as (x & HN & HX & ->). rewrite <- N.add_assoc in R2. destruct v; try discriminate; apply IH with (q := q) in R2; assumption.
  - destruct R as (-> & HX & ->). rewrite <- N.add_assoc in R2. apply IH with (q := q) in R2; assumption.
  - destruct R as (x & HN & HX & ->). rewrite <- N.add_assoc in R2. destruct v; try discriminate; apply IH with (q := q) in R2; assumption.
  - destruct R as (x & HN & HX & ->). rewrite <- N.add_assoc in R2. destruct v; try discriminate; apply IH with (q := q) in R2; assumption.
  - destruct R as (bs & -> & ->). rewrite <- N.add_assoc in R2. apply IH with (q := q) in R2; assumption.
  - injection HT as <-. destruct R as (d & -> & HX). cbn [texts flat_map app]. now exists d, p1, (texts ws).
Qed.
Lemma rd_count_numbers e w buf : w <> 0%nat -> forall n pos l p, rd_count n (rd_int e w) buf pos = Ok (l, p) ->
  length l = n /\ p = pos + N.of_nat w * N.of_nat n /\ forall i x, getN l i = Some x -> number_of e buf (pos + N.of_nat w * i) w = Some x.
Proof.
  intro HW. induction n as [|n IH]; intros pos l p H; cbn [rd_count] in H.
  - apply ret_inv in H as [<- <-]. split; [easy|]. split; [lia|]. intros i x HX. apply getN_Some_lt in HX. cbn in HX. lia.
  - apply bind_inv in H as (x & p1 & R & H). apply bind_inv in H as (xs & p2 & R2 & H). apply ret_inv in H as [<- <-].
    apply rd_int_number in R as [R ->]; [|assumption]. apply IH in R2 as (L & -> & G). split; [cbn; lia|]. split; [lia|].
    intros i y HY. rewrite getN_cons in HY. destruct (i =? 0) eqn:E.
    + injection HY as <-. apply N.eqb_eq in E as ->. now rewrite N.mul_0_r, N.add_0_r.
    + apply G in HY. replace i with (1 + (i - 1)) by lia. now rewrite N.mul_add_distr_l, N.mul_1_r, N.add_assoc.
Qed.

(** ** Offset arrays *)
Lemma rd_items_texts rs buf base : forall os ds, rd_items rs base base os buf = Ok ds ->
  forall i o, getN os i = Some o -> exists d q, getN ds i = Some d /\ rs buf (base + o) = Ok (d, q).
Proof.
  induction os as [|o os IH]; intros ds H i x HX; cbn [rd_items] in H; [apply getN_Some_lt in HX; cbn in HX; lia|].
  destruct (rs buf (base + o)) as [[d q]|e|] eqn:E; [|now destruct (rd_items rs base (base + o) os buf)|easy].
  destruct (rd_items rs base base os buf) as [ds'| |] eqn:E2; try easy. apply Ok_eq in H as <-. rewrite getN_cons in HX. rewrite getN_cons. destruct (i =? 0) in HX |- *.
  - injection HX as <-. now exists d, q.
  - now apply (IH ds' eq_refl).
Qed.
Lemma oarr_texts rs off sz n buf start c p : rd_oarr rs off sz n buf start = Ok (c, p) ->
  number buf start (os_nat sz) = Some 3 /\ off <= start /\ p = start - off /\ length (oa_items c) = n /\
  forall i, i < N.of_nat n -> exists o d q, number buf (start + os_bytes sz * (i + 1)) (os_nat sz) = Some o /\
    getN (oa_items c) i = Some d /\ rs buf (start - off + o) = Ok (d, q).
Proof.
  unfold rd_oarr. destruct (rd_offs sz n buf start) as [[o p1]| |] eqn:RO; [|easy|easy]. intro H. unfold calculate_base in H.
  destruct (off <=? start) eqn:E; [|easy]. cbn [res_bind] in H. destruct (rd_items rs (start - off) (start - off) (of_list o) buf) as [ds| |] eqn:RI; try easy.
  cbn [res_bind] in H. apply Ok_eq in H. injection H as <- <-. unfold rd_offs in RO. apply bind_inv in RO as (u & q1 & R & RO).
  assert (os_nat sz <> 0%nat) as NZ by now destruct sz. apply magic_le_number in R as [R ->]; [|assumption]. apply bind_inv in RO as (l & q2 & RL & RO).
  apply ret_inv in RO as [<- _]. cbn [of_list] in RI. apply (rd_count_numbers LE) in RL as (L & _ & G); [|assumption].
  split; [easy|]. split; [lia|]. split; [easy|]. split.
  { cbn [oa_items]. rewrite <- L. clear -RI. revert ds RI. induction l as [|o os IH]; intros ds RI; cbn [rd_items] in RI; [now apply Ok_eq in RI as <-|].
    destruct (rs buf (start - off + o)) as [[d q]|e|]; [|now destruct (rd_items rs (start - off) (start - off + o) os buf)|easy].
    destruct (rd_items rs (start - off) (start - off) os buf) as [ds'| |] eqn:E2; try easy. apply Ok_eq in RI as <-. cbn. now rewrite (IH ds'). }
  intros i Hi. destruct (getN_lt_Some l i) as [x HX]; [unfold len; lia|]. destruct (rd_items_texts _ _ _ _ _ RI _ _ HX) as (d & q & HD & HR).
  exists x, d, q. split; [|now split]. apply G in HX. cbn [number_of] in HX. unfold os_bytes. now replace (start + N.of_nat (os_nat sz) * (i + 1)) with (start + N.of_nat (os_nat sz) + N.of_nat (os_nat sz) * i) by lia.
Qed.

(** ** Row groups *)
Lemma rgroup_numbers buf endp g p : rd_rgroup buf endp = Ok (g, p) ->
  36 <= endp /\ p = endp - 36 /\ length (rg_offs g) = 16%nat /\ number buf (endp - 4) 2 = Some (rg_flags g) /\ number buf (endp - 2) 2 = Some (rg_unknown g) /\
  forall i, i < 16 -> exists o, getN (rg_offs g) (15 - i) = Some o /\ number buf (endp - 6 - 2 * i) 2 = Some o.
Proof.
  intro H. unfold rd_rgroup in H. apply bind_inv in H as (u & p1 & R & H). unfold seek_rel in R.
  destruct (Z.of_N endp + -36 <? 0)%Z eqn:E; [easy|]. injection R as <- <-. apply bind_inv in H as (os & p2 & R & H).
  replace (Z.to_N (Z.of_N endp + -36)) with (endp - 36) in * by lia.
  apply (rd_count_numbers LE) in R as (L & -> & G); [|lia].
  apply bind_inv in H as (fl & p3 & R & H). apply rd_le_number in R as [F ->]; [|lia].
  apply bind_inv in H as (un & p4 & R & H). apply rd_le_number in R as [U ->]; [|lia].
  apply bind_inv in H as (u2 & p5 & R & H). unfold seek_rel in R.
  match type of R with (if (?x <? 0)%Z then _ else _) = _ => replace (x <? 0)%Z with false in R by lia end.
  injection R as <- <-. apply ret_inv in H as [<- <-]. cbn [rg_offs rg_flags rg_unknown].
  split; [lia|]. split; [lia|]. split; [easy|]. split; [|split].
  - now replace (endp - 4) with (endp - 36 + N.of_nat 2 * N.of_nat 16) by lia.
  - now replace (endp - 2) with (endp - 36 + N.of_nat 2 * N.of_nat 16 + N.of_nat 2) by lia.
  - intros i Hi. destruct (getN_lt_Some os (15 - i)) as [o HO]; [unfold len; lia|]. exists o. split; [easy|]. apply G in HO. cbn [number_of] in HO.
    now replace (endp - 6 - 2 * i) with (endp - 36 + N.of_nat 2 * (15 - i)) by lia.
Qed.
Lemma groups_numbers buf : forall n endp gs p, rd_count n rd_rgroup buf endp = Ok (gs, p) ->
  length gs = n /\ forall k g, getN gs k = Some g -> 36 * (k + 1) <= endp /\ exists q, rd_rgroup buf (endp - 36 * k) = Ok (g, q).
Proof.
  induction n as [|n IH]; intros endp gs p H; cbn [rd_count] in H.
  - apply ret_inv in H as [<- <-]. split; [easy|]. intros k g HG. apply getN_Some_lt in HG. cbn in HG. lia.
  - apply bind_inv in H as (g & p1 & R & H). apply bind_inv in H as (gs' & p2 & R2 & H). apply ret_inv in H as [<- <-].
    pose proof R as R0. apply rgroup_numbers in R0 as (B & -> & _). apply IH in R2 as (L & G). split; [cbn; lia|].
    intros k g' HG. rewrite getN_cons in HG. destruct (k =? 0) eqn:E.
    + injection HG as <-. split; [lia|]. exists (endp - 36). now replace (endp - 36 * k) with endp by lia.
    + apply G in HG as (A & q & HG). split; [lia|]. exists q. now replace (endp - 36 * k) with (endp - 36 - 36 * (k - 1)) by lia.
Qed.
