(** * The layout of an offset array, stated without the code *)
From Coq Require Import NArith ZArith List Bool Lia.
From Coq Require Import ZifyBool ZifyNat ZifyN.
From Verif Require Import Base BaseFacts Segs Utf UtfFacts Str StrFacts Schema SchemaFacts StrGood Oa OaFacts.
Import ListNotations.
Open Scope N_scope.
Ltac Zify.zify_post_hook ::= Z.div_mod_to_equations.

(** [o] is the least multiple of [a] that is not below [lo]. *)
Definition least_multiple (a lo o : N) : Prop :=
  lo <= o /\ o mod a = 0 /\ forall x, lo <= x -> x mod a = 0 -> o <= x.
(** UTF-16 strings start at multiples of 4. *)
Definition start_multiple (d : dstr) : N := match d with DSUcs2 _ => 4 | _ => 1 end.
(** The strings [items] placed one after another from [lo] on start at [os] and end at [hi]. *)
Inductive laid (b : build) : N -> list dstr -> list N -> N -> Prop :=
| laid_nil lo : laid b lo [] [] lo
| laid_cons lo d items o os x hi :
    least_multiple (start_multiple d) lo o -> dstr_enc b d = Ok x -> laid b (o + len x) items os hi ->
    laid b lo (d :: items) (o :: os) hi.

Lemma least_multiple_aligned d lo : least_multiple (start_multiple d) lo (aligned_offset lo (dstr_align d)).
Proof.
  unfold least_multiple, aligned_offset, next_mult. destruct d; cbn [start_multiple dstr_align];
    change (N.max 1 1) with 1; change (N.max 4 1) with 4; rewrite ?N.div_1_r, ?N.mul_1_r, ?N.mod_1_r;
    (split; [lia|split; [lia|]]); intros y Hy Hm; lia.
Qed.
Lemma least_multiple_fun a lo o o' : least_multiple a lo o -> least_multiple a lo o' -> o = o'.
Proof. intros (A & B & C) (A' & B' & C'). specialize (C o' A' B'). specialize (C' o A B). lia. Qed.

Lemma laid_calc b : forall items lo os hi, laid b lo items os hi ->
  exists body, calc_body b lo items = Ok (os, body) /\ hi = lo + len body.
Proof.
  intros items lo os hi H. induction H as [lo|lo d items o os x hi HM HE HL (body & E & IH)].
  - exists []. rewrite len_nil. split; [easy|lia].
  - cbn [calc_body]. rewrite HE. cbn [res_bind].
    rewrite (least_multiple_fun _ _ _ _ (least_multiple_aligned d lo) HM), E. cbn [res_bind].
    exists (zeros (o - lo) ++ x ++ body). split; [easy|]. rewrite !len_app, len_zeros. destruct HM. lia.
Qed.
Lemma calc_laid b : forall items lo os body, calc_body b lo items = Ok (os, body) -> laid b lo items os (lo + len body).
Proof.
  induction items as [|d items IH]; intros lo os body H; cbn [calc_body] in H.
  - injection H as <- <-. rewrite len_nil, N.add_0_r. constructor.
  - destruct (dstr_enc b d) as [x| |] eqn:E; [|easy|easy]. cbn [res_bind] in H.
    pose proof (least_multiple_aligned d lo) as HM. set (al := aligned_offset lo (dstr_align d)) in *.
    destruct (calc_body b (al + len x) items) as [[os' y]| |] eqn:E2; [|easy|easy]. cbn [res_bind] in H. injection H as <- <-.
    econstructor; [eassumption|eassumption|]. rewrite !len_app, len_zeros. destruct HM as [HM _].
    replace (lo + (al - lo + (len x + len y))) with (al + len x + len y) by lia. now apply IH.
Qed.

(** Where the strings start: the magic and the offsets come first. *)
Definition strings_from (offset : N) (sz : osize) (items : list dstr) : N := offset + (len items + 1) * os_bytes sz.

Lemma oarr_calc_spec b offset sz items os hi buf pos :
  offset <= pos -> laid b (strings_from offset sz items) items os hi ->
  (Exists (fun o => 256 ^ os_bytes sz <= o) os -> oarr_write b offset sz (mk_oarr None items) (buf, pos) = Err EAssertFail) /\
  (Forall (fun o => o < 256 ^ os_bytes sz) os ->
   exists buf', oarr_write b offset sz (mk_oarr None items) (buf, pos) = Ok (buf', pos - offset + strings_from offset sz items) /\
     has buf' pos (offs_enc (mk_offs sz os)) /\ Forall2 (item_at b buf' (pos - offset)) items os /\
     len buf' = N.max (len buf) (pos - offset + hi) /\
     forall i, i < pos \/ pos - offset + hi <= i -> i < len buf -> getN buf' i = getN buf i).
Proof.
  intros HP HL. apply laid_calc in HL as (body & HC & ->). rewrite oarr_write_calc by easy. unfold oarr_enc.
  fold (strings_from offset sz items). rewrite HC. cbn [res_bind]. unfold offs_new. split.
  - intro HX. replace (forallb _ os) with false; [easy|]. symmetry. apply not_true_iff_false. rewrite forallb_forall.
    intro F. rewrite Exists_exists in HX. destruct HX as (o & Ho & HX). specialize (F o Ho). lia.
  - intro HF. replace (forallb _ os) with true.
    2:{ symmetry. apply forallb_forall. rewrite Forall_forall in HF. intros o Ho. specialize (HF o Ho). lia. }
    cbn [res_bind]. set (h := offs_enc (mk_offs sz os)). set (w := h ++ body).
    assert (len h = (len items + 1) * os_bytes sz) as Hh.
    { unfold h. rewrite len_offs_enc. cbn [of_list of_size]. now rewrite (calc_body_len _ _ _ _ _ HC). }
    assert (w <> []) as Hw by (unfold w, h; destruct (offs_enc (mk_offs sz os)) eqn:E; [now apply offs_enc_nonempty in E|easy]).
    exists (write_at buf pos w). pose proof (has_write_same buf pos w Hw) as HH. unfold w in HH. apply has_app in HH as [H1 H2].
    unfold strings_from in *. split; [do 2 f_equal; lia|]. split; [easy|]. split; [|split].
    + eapply (calc_body_items b _ (pos - offset) items); [eassumption|].
      replace (pos - offset + (offset + (len items + 1) * os_bytes sz)) with (pos + len h) by lia. exact H2.
    + rewrite len_write_at by easy. unfold w. rewrite len_app. lia.
    + intros i Hi Hl. rewrite getN_write_at by easy. unfold w. rewrite len_app.
      destruct (i <? pos) eqn:E1; [now replace (i <? len buf) with true by lia|].
      now replace (i <? pos + (len h + len body)) with false by lia.
Qed.

Lemma oarr_calc_write_read b offset sz items buf pos buf' pos' :
  Forall dstr_good items -> oarr_write b offset sz (mk_oarr None items) (buf, pos) = Ok (buf', pos') ->
  exists os hi, laid b (strings_from offset sz items) items os hi /\
    rd_oarr (rd_dstr b) offset sz (length items) buf' pos = Ok (mk_oarr (Some (mk_offs sz os)) items, pos - offset).
Proof.
  intros HG HW. rewrite oarr_write_segs in HW.
  destruct (oarr_segs b offset sz (mk_oarr None items) pos) as [[[l o] p]| |] eqn:E; [|easy|easy]. cbn [res_bind] in HW. injection HW as <- <-.
  pose proof E as E0. unfold oarr_segs in E0. destruct (calculate_base pos offset); [|easy|easy]. cbn [res_bind oa_offs oa_items] in E0.
  destruct (oarr_enc b offset sz items) as [[o' bs]| |] eqn:EE; [|easy|easy]. cbn [res_bind] in E0. injection E0 as <- <- <-.
  pose proof EE as EE0. unfold oarr_enc in EE. fold (strings_from offset sz items) in EE.
  destruct (calc_body b (strings_from offset sz items) items) as [[os body]| |] eqn:EC; [|easy|easy]. cbn [res_bind] in EE.
  destruct (offs_new sz os) as [o2| |] eqn:EO; [|easy|easy]. cbn [res_bind] in EE. injection EE as -> <-.
  apply offs_new_inv in EO as [-> HF]. exists os, (strings_from offset sz items + len body). split; [now apply calc_laid|].
  apply (oarr_wr b _ dstr_good) with (c := mk_oarr None items) (1 := dstr_good_wr b _) (3 := E); [easy|].
  apply write_segs_in; [cbn; easy|]. constructor; [|constructor]. left. cbn [snd].
  destruct (offs_enc (mk_offs sz os)) eqn:E9; [now apply offs_enc_nonempty in E9|easy].
Qed.

Lemma laid_starts b lo items os hi : laid b lo items os hi -> Forall2 (fun d o => o mod start_multiple d = 0) items os.
Proof. induction 1 as [|lo d items o os x hi [_ [HM _]] HE HL IH]; constructor; easy. Qed.

Lemma oarr_prov_write_read b offset sz o items buf pos buf' pos' l :
  Forall dstr_good items -> length (of_list o) = length items ->
  Forall (fun x => x < 256 ^ os_bytes sz) (of_list o) ->
  items_segs b (pos - offset) items (of_list o) = Ok l -> segs_disj ((pos, offs_enc o) :: l) ->
  oarr_write b offset sz (mk_oarr (Some o) items) (buf, pos) = Ok (buf', pos') ->
  rd_oarr (rd_dstr b) offset sz (length items) buf' pos = Ok (mk_oarr (Some o) items, pos - offset).
Proof.
  intros HG HL HF HI HD HW. rewrite oarr_write_segs in HW.
  destruct (oarr_segs b offset sz (mk_oarr (Some o) items) pos) as [[[l' o'] p]| |] eqn:E; [|easy|easy]. cbn [res_bind] in HW. injection HW as <- <-.
  pose proof E as E0. unfold oarr_segs, calculate_base in E0. destruct (offset <=? pos) eqn:EP; [|easy]. cbn [res_bind oa_offs oa_items] in E0.
  destruct (osize_eqb (of_size o) sz) eqn:ES; [|easy]. rewrite HI in E0. cbn [res_bind] in E0. injection E0 as <- <- <-.
  apply osize_eqb_eq in ES.
  apply (oarr_wr b _ dstr_good) with (c := mk_oarr (Some o) items) (1 := dstr_good_wr b _) (3 := E); [easy|].
  apply write_segs_in; [exact HD|]. constructor; [left; apply offs_enc_nonempty|].
  assert (Forall (fun s => snd s <> []) l) as HN.
  { clear - HI. revert HI. generalize (pos - offset) as base. generalize (of_list o) as os. revert l.
    induction items as [|d items IH]; intros l os base H; [injection H as <-; constructor|].
    destruct os as [|o0 os]; [injection H as <-; constructor|]. cbn [items_segs] in H.
    destruct (dstr_enc b d) as [x| |] eqn:E; [|easy|easy]. cbn [res_bind] in H.
    destruct (items_segs b base items os) as [l2| |] eqn:E2; [|easy|easy]. injection H as <-. constructor; [|now apply (IH l2 os base)].
    cbn. now apply dstr_enc_nonempty in E. }
  eapply Forall_impl; [|exact HN]. intros s Hs. now left.
Qed.

Lemma oarr_heap_laid b offset sz items os hi :
  offset mod 4 = 0 -> Forall dstr_inv items -> laid b (strings_from offset sz items) items os hi -> hi - offset < 65536 ->
  oarr_heap b sz (mk_oarr None items) = Ok (hi - offset).
Proof.
  intros HO HI HL HS. apply laid_calc in HL as (body & HC & ->). unfold strings_from in *.
  unfold oarr_heap. cbn [oa_offs oa_items]. rewrite N.mod_small by lia.
  rewrite (oarr_heap_calc b offset items _ os body); [f_equal; lia|easy|easy|easy|lia].
Qed.

Lemma oarr_read_write_back b offset sz n buf pos c p :
  bytes_ok buf -> len buf < 2 ^ 64 - 1 -> rd_oarr (rd_dstr_strict b) offset sz n buf pos = Ok (c, p) ->
  rd_oarr (rd_dstr b) offset sz n buf pos = Ok (c, p) /\ oarr_write b offset sz c (buf, pos) = Ok (buf, p).
Proof.
  intros HB HL H. split; [now apply (oarr_mono _ _ _ _ _ _ _ _ (rd_dstr_strict_le b buf))|].
  apply (oarr_rw b _ dstr_parsed) in H as (_ & -> & HP & l & o & _ & E & HI); [|easy|now apply rd_dstr_strict_rw].
  rewrite oarr_write_segs, E. cbn [res_bind]. now rewrite write_segs_id.
Qed.
