(** * Facts about offset arrays *)
From Coq Require Import NArith ZArith List Bool Lia.
From Coq Require Import ZifyBool ZifyNat ZifyN.
From Verif Require Import Base BaseFacts Segs Utf UtfFacts Str StrFacts Schema SchemaFacts StrGood Oa.
Import ListNotations.
Open Scope N_scope.
Ltac Zify.zify_post_hook ::= Z.div_mod_to_equations.

Lemma write_at_before buf pos h body :
  h <> [] -> write_at (write_at buf (pos + len h) body) pos h = write_at buf pos (h ++ body).
Proof.
  intro Hh. destruct body as [|b0 body]; [now rewrite app_nil_r|]. remember (b0 :: body) as bd.
  assert (bd <> []) as Hb by now subst. assert (h ++ bd <> []) as Ha by now destruct h.
  apply list_ext. intro i. rewrite !getN_write_at by easy. rewrite len_write_at by easy. rewrite len_app, getN_app.
  destruct (i <? pos) eqn:E1.
  - destruct (i <? len buf) eqn:E2.
    + replace (i <? N.max (len buf) (pos + len h + len bd)) with true by lia.
      now replace (i <? pos + len h) with true by lia.
    + replace (i <? pos + len h) with true by lia.
      destruct (i <? N.max (len buf) (pos + len h + len bd)); easy.
  - destruct (i <? pos + len h) eqn:E2.
    + replace (i <? pos + (len h + len bd)) with true by lia. now replace (i - pos <? len h) with true by lia.
    + replace (pos + (len h + len bd)) with (pos + len h + len bd) by lia.
      destruct (i <? pos + len h + len bd) eqn:E3; [|easy]. replace (i - pos <? len h) with false by lia. f_equal. lia.
Qed.

Lemma flat_le_len n (os : list N) : len (flat_map (le_enc n) os) = len os * N.of_nat n.
Proof. induction os; [easy|]. cbn [flat_map]. rewrite len_app, len_le_enc, IHos, len_cons. lia. Qed.
Lemma len_offs_enc o : len (offs_enc o) = (len (of_list o) + 1) * os_bytes (of_size o).
Proof. unfold offs_enc, os_bytes. rewrite len_app, len_le_enc, flat_le_len. lia. Qed.
Lemma offs_enc_nonempty o : offs_enc o <> [].
Proof. unfold offs_enc. destruct (of_size o); easy. Qed.
Lemma os_bytes_cases sz : os_bytes sz = 1 \/ os_bytes sz = 2.
Proof. destruct sz; [now left|now right]. Qed.
Lemma os_nat_nz sz : os_nat sz <> 0%nat.
Proof. now destruct sz. Qed.

Lemma rd_offs_wr o buf pos :
  Forall (fun x => x < 256 ^ os_bytes (of_size o)) (of_list o) -> has buf pos (offs_enc o) ->
  rd_offs (of_size o) (length (of_list o)) buf pos = Ok (o, pos + len (offs_enc o)).
Proof.
  intros HO H. unfold offs_enc in H. apply has_app in H as [H1 H2]. rewrite len_le_enc in H2. unfold rd_offs.
  eapply bind_ok. { apply magic_le_has; [now destruct (of_size o)|eassumption]. }
  eapply bind_ok.
  { apply (rd_count_has (le_enc (os_nat (of_size o))) _ (fun x => x < 256 ^ os_bytes (of_size o))); try eassumption.
    intros v p Hv Hh. rewrite len_le_enc. now apply rd_le_has. }
  unfold ret. destruct o as [sz l]. cbn [of_size of_list]. do 2 f_equal. unfold offs_enc. rewrite len_app, len_le_enc. cbn. lia.
Qed.
Lemma rd_offs_rw sz n buf pos o pos' :
  bytes_ok buf -> rd_offs sz n buf pos = Ok (o, pos') ->
  of_size o = sz /\ length (of_list o) = n /\ Forall (fun x => x < 256 ^ os_bytes sz) (of_list o) /\
  has buf pos (offs_enc o) /\ pos' = pos + len (offs_enc o).
Proof.
  intros HB H. unfold rd_offs in H. apply bind_inv in H as (u & p1 & R1 & H).
  apply magic_le_inv in R1 as [H1 ->]; [|apply os_nat_nz|easy]. apply bind_inv in H as (l & p2 & R2 & H).
  apply ret_inv in H as [<- <-]. cbn [of_size of_list].
  apply (rd_count_inv (le_enc (os_nat sz)) _ (fun x => x < 256 ^ os_bytes sz)) in R2.
  2:{ intros v p p' R. apply rd_le_inv in R as (A & B & ->); [|apply os_nat_nz|easy]. rewrite len_le_enc. easy. }
  destruct R2 as (HL & HF & HH & ->). repeat split; try easy.
  - unfold offs_enc; cbn [of_size of_list]. apply has_app. split; [easy|]. rewrite len_le_enc.
    destruct HH as [Z|HH]; [|easy]. rewrite Z in HL. destruct l; [|easy]. cbn. apply has_len in H1. rewrite len_le_enc in H1. now apply has_nil.
  - unfold offs_enc; cbn [of_size of_list]. rewrite len_app, len_le_enc. lia.
Qed.

(** ** Computed offsets *)

(** The bytes behind the offsets, and the offsets; [cur] is the distance of the next byte from the row start. *)
Fixpoint calc_body (b : build) (cur : N) (items : list dstr) : res (list N * list N) :=
  match items with
  | [] => Ok ([], [])
  | d :: r =>
    let al := aligned_offset cur (dstr_align d) in
    do! x <- dstr_enc b d;
    do! (os, y) <- calc_body b (al + len x) r;
    Ok (al :: os, zeros (al - cur) ++ x ++ y)
  end.

Lemma next_mult_ge x a : a <> 0 -> x <= next_mult x a < x + a.
Proof.
  intro. unfold next_mult. pose proof (N.div_mod (x + a - 1) a ltac:(easy)).
  pose proof (N.mod_lt (x + a - 1) a ltac:(easy)). rewrite (N.mul_comm _ a). lia.
Qed.
Lemma next_mult_mod x a : a <> 0 -> next_mult x a mod a = 0.
Proof. intro. unfold next_mult. now apply N.mod_mul. Qed.
Lemma aligned_ge x d : x <= aligned_offset x (dstr_align d) < x + 4.
Proof. unfold aligned_offset. destruct d; cbn [dstr_align]; match goal with |- context [next_mult _ ?a] => pose proof (next_mult_ge x a ltac:(easy)) end; lia. Qed.

Lemma wr_items_calc_eq b base : forall items buf pos,
  base <= pos ->
  wr_items_calc b base items (buf, pos) =
    (do! (os, body) <- calc_body b (pos - base) items; Ok (os, (write_at buf pos body, pos + len body))).
Proof.
  induction items as [|d items IH]; intros buf pos HP.
  - cbn. now rewrite N.add_0_r.
  - cbn [wr_items_calc calc_body snd]. pose proof (aligned_ge (pos - base) d) as HA.
    set (al := aligned_offset (pos - base) (dstr_align d)) in *. cbn [wr_bytes res_bind]. rewrite len_zeros.
    unfold dstr_write. destruct (dstr_enc b d) as [x| |] eqn:E; [|easy|easy]. cbn [res_bind wr_bytes].
    rewrite IH by lia. replace (pos + (al - (pos - base)) + len x - base) with (al + len x) by lia.
    destruct (calc_body b (al + len x) items) as [[os y]| |]; [|easy|easy]. cbn [res_bind].
    do 3 f_equal.
    + rewrite !write_at_app, len_zeros. reflexivity.
    + rewrite !len_app, len_zeros. lia.
Qed.

Definition oarr_enc (b : build) (offset : N) (sz : osize) (items : list dstr) : res (offs * list N) :=
  do! (os, body) <- calc_body b (offset + (len items + 1) * os_bytes sz) items;
  do! o <- offs_new sz os; Ok (o, offs_enc o ++ body).

Lemma calc_body_len b : forall items cur os body, calc_body b cur items = Ok (os, body) -> len os = len items.
Proof.
  induction items as [|d items IH]; intros cur os body H; [now injection H as <- <-|]. cbn [calc_body] in H.
  destruct (dstr_enc b d) as [x| |]; [|easy|easy]. cbn [res_bind] in H.
  destruct (calc_body b (aligned_offset cur (dstr_align d) + len x) items) as [[os' y]| |] eqn:E; [|easy|easy].
  cbn [res_bind] in H. injection H as <- <-. rewrite !len_cons. apply IH in E. lia.
Qed.
Lemma offs_new_inv sz os o : offs_new sz os = Ok o -> o = mk_offs sz os /\ Forall (fun x => x < 256 ^ os_bytes sz) os.
Proof.
  unfold offs_new. destruct (forallb _ os) eqn:E; [|easy]. intros [= <-]. split; [easy|]. rewrite forallb_forall in E.
  apply Forall_forall. intros x Hx. specialize (E x Hx). lia.
Qed.

Lemma oarr_write_calc b offset sz items buf pos :
  offset <= pos ->
  oarr_write b offset sz (mk_oarr None items) (buf, pos) =
    (do! (o, bs) <- oarr_enc b offset sz items;
     Ok (write_at buf pos bs, pos + (len items + 1) * os_bytes sz)).
Proof.
  intro HP. unfold oarr_write, oarr_enc, calculate_base. cbn [snd oa_offs oa_items].
  replace (offset <=? pos) with true by lia. cbn [res_bind wr_seek].
  rewrite wr_items_calc_eq by lia.
  replace (pos + (len items + 1) * os_bytes sz - (pos - offset)) with (offset + (len items + 1) * os_bytes sz) by lia.
  destruct (calc_body b (offset + (len items + 1) * os_bytes sz) items) as [[os body]| |] eqn:E; [|easy|easy].
  cbn [res_bind]. destruct (offs_new sz os) as [o| |] eqn:EO; [|easy|easy]. cbn [res_bind wr_bytes wr_seek].
  apply offs_new_inv in EO as [-> _].
  assert (len (offs_enc (mk_offs sz os)) = (len items + 1) * os_bytes sz) as HL.
  { rewrite len_offs_enc. cbn [of_list of_size]. now rewrite (calc_body_len _ _ _ _ _ E). }
  rewrite HL. rewrite <- HL at 1. rewrite write_at_before by apply offs_enc_nonempty. reflexivity.
Qed.

(** Each item is stored at its offset. *)
Definition item_at (b : build) (buf : list N) (base : N) (d : dstr) (o : N) : Prop :=
  exists x, dstr_enc b d = Ok x /\ has buf (base + o) x.
Lemma calc_body_items b buf base : forall items cur os body,
  calc_body b cur items = Ok (os, body) -> has buf (base + cur) body ->
  Forall2 (item_at b buf base) items os /\ Forall2 (fun d o => o mod dstr_align d = 0) items os.
Proof.
  induction items as [|d items IH]; intros cur os body H HH; [injection H as <- <-; split; constructor|].
  cbn [calc_body] in H. destruct (dstr_enc b d) as [x| |] eqn:E; [|easy|easy]. cbn [res_bind] in H.
  pose proof (aligned_ge cur d) as HA. set (al := aligned_offset cur (dstr_align d)) in *.
  destruct (calc_body b (al + len x) items) as [[os' y]| |] eqn:E2; [|easy|easy].
  cbn [res_bind] in H. injection H as <- <-. apply has_app in HH as [_ HH]. rewrite len_zeros in HH.
  replace (base + cur + (al - cur)) with (base + al) in HH by lia. apply has_app in HH as [Hx Hy].
  rewrite <- N.add_assoc in Hy. destruct (IH _ _ _ E2 Hy) as [I1 I2]. split; constructor; try easy.
  - exists x. easy.
  - subst al. unfold aligned_offset. destruct d; cbn [dstr_align]; now apply next_mult_mod.
Qed.

Lemma rd_items_wr b rs Q buf base : str_wr b rs Q buf -> forall items os,
  Forall Q items -> Forall2 (item_at b buf base) items os -> rd_items rs base base os buf = Ok items.
Proof.
  intro HS. induction items as [|d items IH]; intros os HQ H; inversion H as [|? o ? os' (x & E & Hx) H2]; subst; [easy|].
  inversion HQ as [|? ? Q1 Q2]; subst. cbn [rd_items]. rewrite (HS d _ x Q1 E Hx). now rewrite IH.
Qed.

(** ** Segments *)
Fixpoint items_segs (b : build) (base : N) (items : list dstr) (os : list N) : res (list seg) :=
  match items, os with
  | d :: items', o :: os' => do! x <- dstr_enc b d; do! l <- items_segs b base items' os'; Ok ((base + o, x) :: l)
  | _, _ => Ok []
  end.
Lemma wr_items_at_eq b base : forall items os buf pos,
  wr_items_at b base items os (buf, pos) =
    (do! l <- items_segs b base items os;
     Ok (write_segs buf l, match items, os with _ :: _, _ :: _ => base | _, _ => pos end)).
Proof.
  induction items as [|d items IH]; intros os buf pos; [reflexivity|]. destruct os as [|o os]; [reflexivity|].
  cbn [wr_items_at items_segs wr_seek res_bind]. unfold dstr_write. destruct (dstr_enc b d) as [x| |]; [|easy|easy].
  cbn [res_bind wr_bytes wr_seek]. rewrite IH. destruct (items_segs b base items os) as [l| |]; [|easy|easy].
  cbn [res_bind]. destruct items, os; reflexivity.
Qed.

(** The segments that writing an offset array at [pos] produces, the offsets, and the final position. *)
Definition oarr_segs (b : build) (offset : N) (sz : osize) (c : oarr) (pos : N) : res (list seg * offs * N) :=
  do! base <- calculate_base pos offset;
  match oa_offs c with
  | None => do! (o, bs) <- oarr_enc b offset sz (oa_items c);
            Ok ([(pos, bs)], o, pos + (len (oa_items c) + 1) * os_bytes sz)
  | Some o => if osize_eqb (of_size o) sz then
                do! l <- items_segs b base (oa_items c) (of_list o);
                Ok ((pos, offs_enc o) :: l, o, base)
              else Err EAssertFail
  end.
Lemma oarr_write_segs b offset sz c buf pos :
  oarr_write b offset sz c (buf, pos) =
    (do! (l, _, p) <- oarr_segs b offset sz c pos; Ok (write_segs buf l, p)).
Proof.
  destruct c as [[o|] items]; unfold oarr_segs; cbn [oa_offs oa_items].
  - unfold oarr_write. cbn [snd oa_offs oa_items]. destruct (calculate_base pos offset) as [base| |]; [|easy|easy].
    cbn [res_bind]. destruct (osize_eqb (of_size o) sz); [|easy]. cbn [wr_bytes res_bind wr_seek].
    rewrite wr_items_at_eq. destruct (items_segs b base items (of_list o)) as [l| |]; [|easy|easy]. cbn [res_bind write_segs].
    destruct items, (of_list o); reflexivity.
  - unfold calculate_base. destruct (offset <=? pos) eqn:E.
    + rewrite oarr_write_calc by lia. cbn [res_bind]. destruct (oarr_enc b offset sz items) as [[o bs]| |]; reflexivity.
    + unfold oarr_write, calculate_base. cbn [snd]. now rewrite E.
Qed.

Definition oarr_ok (Q : dstr -> Prop) (sz : osize) (n : nat) (c : oarr) : Prop :=
  length (oa_items c) = n /\ Forall Q (oa_items c) /\
  match oa_offs c with
  | None => True
  | Some o => of_size o = sz /\ length (of_list o) = n /\ Forall (fun x => x < 256 ^ os_bytes sz) (of_list o)
  end.

Lemma items_segs_at b buf base : forall items os l,
  length items = length os -> items_segs b base items os = Ok l -> segs_in buf l -> Forall2 (item_at b buf base) items os.
Proof.
  induction items as [|d items IH]; intros [|o os] l HL HE HS; try easy. cbn [items_segs] in HE.
  destruct (dstr_enc b d) as [x| |] eqn:E; [|easy|easy]. cbn [res_bind] in HE.
  destruct (items_segs b base items os) as [l'| |] eqn:E2; [|easy|easy]. injection HE as <-.
  inversion HS as [|? ? S1 S2]; subst. constructor; [exists x; easy|]. apply (IH os l'); [now injection HL|easy|easy].
Qed.

Lemma osize_eqb_refl sz : osize_eqb sz sz = true. Proof. now destruct sz. Qed.
Lemma osize_eqb_eq a b : osize_eqb a b = true -> a = b. Proof. now destruct a, b. Qed.

Lemma oarr_wr b rs Q offset sz n c buf pos l o p :
  str_wr b rs Q buf -> oarr_ok Q sz n c -> oarr_segs b offset sz c pos = Ok (l, o, p) -> segs_in buf l ->
  rd_oarr rs offset sz n buf pos = Ok (mk_oarr (Some o) (oa_items c), pos - offset).
Proof.
  intros HS (HN & HQ & HO) HE HI. unfold oarr_segs, calculate_base in HE. unfold rd_oarr, calculate_base.
  destruct (offset <=? pos) eqn:EP; [|easy]. cbn [res_bind] in HE. set (base := pos - offset) in *.
  destruct c as [[o0|] items]; cbn [oa_offs oa_items] in *.
  - destruct HO as (<- & HL & HF). rewrite osize_eqb_refl in HE.
    destruct (items_segs b base items (of_list o0)) as [l'| |] eqn:EI; [|easy|easy]. cbn [res_bind] in HE.
    injection HE as <- <- <-. inversion HI as [|? ? I1 I2]; subst. cbn [fst snd] in I1.
    rewrite <- HL. rewrite rd_offs_wr by easy. cbn [res_bind].
    rewrite (rd_items_wr b rs Q buf base HS items); [easy|easy|]. eapply items_segs_at; try eassumption. congruence.
  - destruct (oarr_enc b offset sz items) as [[o0 bs]| |] eqn:EE; [|easy|easy]. cbn [res_bind] in HE. injection HE as <- <- <-.
    inversion HI as [|? ? I1 I2]; subst. cbn [fst snd] in I1. unfold oarr_enc in EE.
    destruct (calc_body b (offset + (len items + 1) * os_bytes sz) items) as [[os body]| |] eqn:EC; [|easy|easy].
    cbn [res_bind] in EE. destruct (offs_new sz os) as [o'| |] eqn:EO; [|easy|easy]. cbn [res_bind] in EE. injection EE as -> <-.
    apply offs_new_inv in EO as [-> HF]. apply has_app in I1 as [Ho Hb]. pose proof (calc_body_len _ _ _ _ _ EC) as HL.
    replace (length items) with (length os) by (unfold len in HL; lia).
    change sz with (of_size (mk_offs sz os)) at 1. change os with (of_list (mk_offs sz os)) at 1.
    rewrite rd_offs_wr by easy. cbn [res_bind of_list].
    rewrite len_offs_enc in Hb. cbn [of_list of_size] in Hb. rewrite HL in Hb.
    replace (pos + (len items + 1) * os_bytes sz) with (base + (offset + (len items + 1) * os_bytes sz)) in Hb by lia.
    destruct (calc_body_items _ _ _ _ _ _ _ EC Hb) as [HA _].
    now rewrite (rd_items_wr b rs Q buf base HS items).
Qed.

Lemma rd_items_rw b rs Q buf base : str_rw b rs Q buf -> forall os items,
  rd_items rs base base os buf = Ok items ->
  length items = length os /\ Forall Q items /\
  exists l, items_segs b base items os = Ok l /\ segs_in buf l.
Proof.
  intro HS. induction os as [|o os IH]; intros items H; cbn [rd_items] in H.
  - injection H as <-. repeat split; [constructor|]. exists []. split; [easy|constructor].
  - destruct (rs buf (base + o)) as [[d q]| |] eqn:E; [| |easy].
    + destruct (rd_items rs base base os buf) as [ds| |] eqn:E2; [|easy|easy]. injection H as <-.
      destruct (IH _ eq_refl) as (HL & HF & l & EL & HI). apply HS in E as (HQ & x & EX & HX & _).
      repeat split; [cbn; congruence|now constructor|]. exists ((base + o, x) :: l). cbn [items_segs]. rewrite EX.
      cbn [res_bind]. rewrite EL. split; [easy|]. now constructor.
    + destruct (rd_items rs base (base + o) os buf); easy.
Qed.

Lemma oarr_rw b rs Q offset sz n c buf pos p :
  bytes_ok buf -> str_rw b rs Q buf -> rd_oarr rs offset sz n buf pos = Ok (c, p) ->
  oarr_ok Q sz n c /\ p = pos - offset /\ offset <= pos /\
  exists l o, oa_offs c = Some o /\ oarr_segs b offset sz c pos = Ok (l, o, pos - offset) /\ segs_in buf l.
Proof.
  intros HB HS H. unfold rd_oarr in H. destruct (rd_offs sz n buf pos) as [[o q]| |] eqn:E; [|easy|easy].
  unfold calculate_base in H. destruct (offset <=? pos) eqn:EP; [|easy]. cbn [res_bind] in H.
  destruct (rd_items rs (pos - offset) (pos - offset) (of_list o) buf) as [items| |] eqn:EI; [|easy|easy].
  cbn [res_bind] in H. injection H as <- <-. apply rd_offs_rw in E as (<- & HL & HF & HH & _); [|easy].
  apply (rd_items_rw b rs Q) in EI as (HL2 & HQ & l & EL & HI); [|easy]. split; [|split; [easy|split; [lia|]]].
  - repeat split; cbn [oa_items oa_offs]; try easy. congruence.
  - exists ((pos, offs_enc o) :: l), o. split; [easy|]. unfold oarr_segs, calculate_base. rewrite EP. cbn [res_bind oa_offs oa_items].
    rewrite osize_eqb_refl, EL. split; [easy|]. now constructor.
Qed.

Lemma rd_items_mono rs1 rs2 buf base : rs_le rs1 rs2 buf -> forall os items,
  rd_items rs1 base base os buf = Ok items -> rd_items rs2 base base os buf = Ok items.
Proof.
  intro HS. induction os as [|o os IH]; intros items H; [easy|]. cbn [rd_items] in *.
  destruct (rs1 buf (base + o)) as [[d q]| |] eqn:E; [| |easy].
  - rewrite (HS _ _ E). destruct (rd_items rs1 base base os buf) as [ds| |]; [|easy|easy]. now rewrite (IH ds).
  - destruct (rd_items rs1 base (base + o) os buf); easy.
Qed.
Lemma oarr_mono rs1 rs2 offset sz n buf pos r :
  rs_le rs1 rs2 buf -> rd_oarr rs1 offset sz n buf pos = Ok r -> rd_oarr rs2 offset sz n buf pos = Ok r.
Proof.
  intros HS H. unfold rd_oarr in *. destruct (rd_offs sz n buf pos) as [[o q]| |]; [|easy|easy].
  destruct (calculate_base pos offset) as [base| |]; [|easy|easy]. cbn [res_bind] in *.
  destruct (rd_items rs1 base base (of_list o) buf) as [items| |] eqn:E; [|easy|easy].
  now rewrite (rd_items_mono _ _ _ _ HS _ _ E).
Qed.

(** ** Sizes *)
Lemma aligned_shift off k d : off mod 4 = 0 -> aligned_offset (off + k) (dstr_align d) = off + aligned_offset k (dstr_align d).
Proof.
  intro H. unfold aligned_offset, next_mult. destruct d; cbn [dstr_align]; change (N.max 1 1) with 1; change (N.max 4 1) with 4;
    rewrite ?N.div_1_r, ?N.mul_1_r; lia.
Qed.
Lemma oarr_heap_calc b off : forall items k os body,
  off mod 4 = 0 -> Forall dstr_inv items -> calc_body b (off + k) items = Ok (os, body) -> k + len body < 65536 ->
  oarr_heap_items b true items k = Ok (k + len body).
Proof.
  induction items as [|d items IH]; intros k os body HO HI HC HL.
  - injection HC as <- <-. cbn [oarr_heap_items]. now rewrite len_nil, N.add_0_r.
  - cbn [calc_body] in HC. inversion HI as [|? ? I1 I2]; subst.
    destruct (dstr_enc b d) as [x| |] eqn:E; [|easy|easy]. cbn [res_bind] in HC.
    rewrite aligned_shift in HC by easy. pose proof (aligned_ge k d) as HA.
    cbn [oarr_heap_items]. set (al := aligned_offset k (dstr_align d)) in *.
    rewrite <- N.add_assoc in HC.
    destruct (calc_body b (off + (al + len x)) items) as [[os' y]| |] eqn:E2; [|easy|easy].
    cbn [res_bind] in HC. injection HC as <- <-. rewrite !len_app, len_zeros in *.
    rewrite (dstr_heap_exact b d x) by (easy || lia). cbn [res_bind].
    rewrite N.mod_small by lia. rewrite wadd_ok by (change (2 ^ 16) with 65536; lia). cbn [res_bind].
    rewrite (IH _ _ _ HO I2 E2) by lia. f_equal. lia.
Qed.
Lemma oarr_heap_exact b off sz items o bs :
  off mod 4 = 0 -> Forall dstr_inv items -> oarr_enc b off sz items = Ok (o, bs) -> len bs < 65536 ->
  oarr_heap b sz (mk_oarr None items) = Ok (len bs).
Proof.
  intros HO HI HE HL. unfold oarr_enc in HE.
  destruct (calc_body b (off + (len items + 1) * os_bytes sz) items) as [[os body]| |] eqn:EC; [|easy|easy].
  cbn [res_bind] in HE. destruct (offs_new sz os) as [o'| |] eqn:EO; [|easy|easy]. cbn [res_bind] in HE. injection HE as -> <-.
  apply offs_new_inv in EO as [-> HF]. rewrite len_app, len_offs_enc in *. cbn [of_list of_size] in *.
  rewrite (calc_body_len _ _ _ _ _ EC) in *. unfold oarr_heap. cbn [oa_offs oa_items].
  rewrite N.mod_small by lia. now rewrite (oarr_heap_calc b off items _ os body).
Qed.

(** For provided offsets the prediction is the sum of the sizes, whatever the offsets are. *)
Fixpoint items_size (b : build) (items : list dstr) : res N :=
  match items with [] => Ok 0 | d :: r => do! x <- dstr_enc b d; do! n <- items_size b r; Ok (len x + n) end.
Lemma oarr_heap_prov_items b : forall items k n,
  Forall dstr_inv items -> items_size b items = Ok n -> k + n < 65536 -> oarr_heap_items b false items k = Ok (k + n).
Proof.
  induction items as [|d items IH]; intros k n HI HS HL.
  - injection HS as <-. cbn. now rewrite N.add_0_r.
  - cbn [items_size] in HS. inversion HI as [|? ? I1 I2]; subst. destruct (dstr_enc b d) as [x| |] eqn:E; [|easy|easy].
    cbn [res_bind] in HS. destruct (items_size b items) as [m| |] eqn:E2; [|easy|easy]. injection HS as <-.
    cbn [oarr_heap_items]. rewrite (dstr_heap_exact b d x) by (easy || lia). cbn [res_bind].
    rewrite wadd_ok by (change (2 ^ 16) with 65536; lia). cbn [res_bind]. rewrite (IH _ m); [f_equal; lia|easy|easy|lia].
Qed.
Lemma oarr_heap_prov b sz o items n :
  Forall dstr_inv items -> items_size b items = Ok n -> (len items + 1) * os_bytes sz + n < 65536 ->
  oarr_heap b sz (mk_oarr (Some o) items) = Ok ((len items + 1) * os_bytes sz + n).
Proof.
  intros HI HS HL. unfold oarr_heap. cbn [oa_offs oa_items]. rewrite N.mod_small by lia. now apply oarr_heap_prov_items.
Qed.

(** ** Panics: only from strings. *)
Lemma rd_items_no_panic rs buf : (forall pos, rs buf pos <> Panic) -> forall os base cur, rd_items rs base cur os buf <> Panic.
Proof.
  intro HS. induction os as [|o os IH]; intros base cur; [easy|]. cbn [rd_items]. specialize (HS (cur + o)).
  destruct (rs buf (cur + o)) as [[d q]| |]; [| |easy].
  - specialize (IH base base). now destruct (rd_items rs base base os buf).
  - specialize (IH base (cur + o)). now destruct (rd_items rs base (cur + o) os buf).
Qed.
Lemma rd_oarr_no_panic rs buf offset sz n pos :
  (forall pos, rs buf pos <> Panic) -> rd_oarr rs offset sz n buf pos <> Panic.
Proof.
  intro HS. unfold rd_oarr. assert (rd_offs sz n buf pos <> Panic) as H1.
  { unfold rd_offs, bind. pose proof (magic_le_no_panic (os_nat sz) 3 buf pos).
    destruct (magic_le (os_nat sz) 3 buf pos) as [[u p]| |]; [|easy|easy].
    pose proof (rd_count_no_panic (rd_le (os_nat sz)) buf (fun p => rd_le_no_panic _ _ p) n p).
    now destruct (rd_count n (rd_le (os_nat sz)) buf p) as [[? ?]| |]. }
  destruct (rd_offs sz n buf pos) as [[o q]| |]; [|easy|easy]. unfold calculate_base.
  destruct (offset <=? pos); [|easy]. cbn [res_bind].
  pose proof (rd_items_no_panic rs buf HS (of_list o) (pos - offset) (pos - offset)).
  now destruct (rd_items rs (pos - offset) (pos - offset) (of_list o) buf).
Qed.
