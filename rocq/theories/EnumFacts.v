(** * Enums with codes *)
From Coq Require Import NArith ZArith List Bool Lia.
From Coq Require Import ZifyBool ZifyNat ZifyN.
From Verif Require Import Base BaseFacts Str Schema SchemaFacts Rows.
Import ListNotations.
Open Scope N_scope.

Definition codes_fit (n : nat) (codes : list N) : Prop := Forall (fun c => c < 256 ^ N.of_nat n) codes.
(** The values of an enum with unit variants for [codes] and a catch-all of [n] bytes. *)
Definition enum_value (n : nat) (codes : list N) (v : fval) : Prop :=
  match v with VNamed c => In c codes | VOther c => c < 256 ^ N.of_nat n | _ => False end.

Lemma enum_fallback rs b e n codes v bs buf pos :
  n <> 0%nat -> codes_fit n codes -> enum_value n codes v -> enc_field b (FEnumF e n codes) v = Ok bs -> has buf pos bs ->
  (rd_field rs (FEnumF e n codes) buf pos = Ok (v, pos + N.of_nat n) <-> ~ exists c, v = VOther c /\ In c codes).
Proof.
  intros HN HC HV HE HH. unfold codes_fit in HC. rewrite Forall_forall in HC.
  assert (exists c, bs = int_enc e n c /\ c < 256 ^ N.of_nat n /\
    rd_field rs (FEnumF e n codes) buf pos = Ok (if mem c codes then VNamed c else VOther c, pos + N.of_nat n) /\
    (v = VNamed c \/ v = VOther c)) as (c & -> & HB & -> & HW).
  { destruct v as [x| |c|c|xs|d]; try easy; cbn in HE; injection HE as <-; exists c; (split; [easy|]); cbn in HV;
      [assert (c < 256 ^ N.of_nat n) as HB by now apply HC|assert (c < 256 ^ N.of_nat n) as HB by easy]; (split; [easy|]); (split; [|auto]);
      cbn [rd_field]; unfold bind; now rewrite (rd_int_has e n c buf pos). }
  destruct (mem c codes) eqn:EM.
  - apply mem_in in EM. destruct HW as [->| ->]; [split; [|easy]; now intros _ (c' & E & _)|].
    split; [easy|]. intro H. exfalso. apply H. now exists c.
  - destruct HW as [->| ->].
    + cbn in HV. apply mem_in in HV. congruence.
    + split; [|easy]. intros _ (c' & E & HI). injection E as <-. apply mem_in in HI. congruence.
Qed.
Lemma filetype_fallback rs b v bs buf pos :
  enum_value 2 [0; 1; 4; 5; 11; 12] v -> enc_field b (FEnumF LE 2 filetype_codes) v = Ok bs -> has buf pos bs ->
  (rd_field rs (FEnumF LE 2 filetype_codes) buf pos = Ok (v, pos + 2) <-> ~ exists c, v = VOther c /\ In c [0; 1; 4; 5; 11; 12]).
Proof. intros. apply (enum_fallback rs b LE 2 filetype_codes v bs); try easy. repeat constructor. Qed.
Lemma menuvis_fallback rs b v bs buf pos :
  enum_value 1 [0; 1] v -> enc_field b (FEnumF LE 1 menuvis_codes) v = Ok bs -> has buf pos bs ->
  (rd_field rs (FEnumF LE 1 menuvis_codes) buf pos = Ok (v, pos + 1) <-> ~ exists c, v = VOther c /\ In c [0; 1]).
Proof. intros. apply (enum_fallback rs b LE 1 menuvis_codes v bs); try easy. repeat constructor. Qed.

Lemma ptype_of_kind db k : In k (db_kinds db) -> ptype_of db (kind_code k) = PT k.
Proof. destruct db; cbn; intuition; subst; reflexivity. Qed.
Lemma ptype_of_spec db c :
  match ptype_of db c with PT k => In k (db_kinds db) /\ kind_code k = c | PTUnknown c' => c' = c /\ ~ exists k, In k (db_kinds db) /\ kind_code k = c end.
Proof.
  unfold ptype_of. destruct (find _ (db_kinds db)) as [k|] eqn:E.
  - apply find_some in E as [H1 H2]. split; [easy|]. lia.
  - split; [easy|]. intros (k & HI & HK). pose proof (find_none _ _ E k HI) as H. cbv beta in H. lia.
Qed.
Lemma ptype_of_code db c : ptype_code (ptype_of db c) = c.
Proof. pose proof (ptype_of_spec db c) as H. destruct (ptype_of db c); now cbn. Qed.
Lemma ptype_fallback db pt buf pos :
  ptype_code pt < 2 ^ 32 -> has buf pos (le_enc 4 (ptype_code pt)) ->
  (rd_ptype db buf pos = Ok (pt, pos + 4) <->
   match pt with PT k => In k (db_kinds db) | PTUnknown c => ~ exists k, In k (db_kinds db) /\ kind_code k = c end).
Proof.
  intros HB HH. unfold rd_ptype, bind. rewrite (rd_le_has 4 (ptype_code pt) buf pos) by easy. unfold ret.
  change (pos + N.of_nat 4) with (pos + 4). pose proof (ptype_of_spec db (ptype_code pt)) as HS.
  split.
  - intros [= E]. rewrite E in HS. destruct pt; cbn in *; easy.
  - intro H. do 2 f_equal. destruct pt as [k|c]; cbn in *; [now apply ptype_of_kind|].
    destruct (ptype_of db c) as [k|c'] eqn:E; [|now destruct HS as [-> _]]. destruct H. now exists k.
Qed.
Lemma color_reject rs x buf pos :
  getN buf pos = Some x ->
  rd_field rs (FEnum LE 1 color_codes) buf pos = if x <=? 8 then Ok (VNamed x, pos + 1) else Err ENoVariant.
Proof.
  intro H. cbn [rd_field rd_int]. unfold bind.
  change (rd_le 1) with rd_u8. rewrite (rd_u8_get _ _ _ H).
  unfold guard. destruct (x <=? 8) eqn:E.
  - replace (mem x color_codes) with true; [easy|]. symmetry. apply mem_in. unfold color_codes. cbn. lia.
  - replace (mem x color_codes) with false; [easy|]. symmetry. apply not_true_iff_false. rewrite mem_in. unfold color_codes. cbn. lia.
Qed.
