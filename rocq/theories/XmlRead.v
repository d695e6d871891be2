(** * What an XML element says: the specification of reading

    Independent of the readers in [Xml.v]: numbers as text, the attributes of an element by name, the block of child elements of one name.
    The tables follow the documented attributes, xml.rs:22-534. *)
From Coq Require Import NArith ZArith List Bool Lia String.
From Coq Require Import Decimal DecimalN.
From Coq Require Import ZifyBool ZifyNat ZifyN Permutation.
From Verif Require Import Xml XmlFacts XmlDoc.
Import ListNotations.
Local Close Scope string_scope.
Open Scope N_scope.

(** ** Numbers *)
Definition digit (c : N) : Prop := 48 <= c <= 57.
Definition decimal (t : text) : N := fold_left (fun n c => 10 * n + (c - 48)) t 0.
(** The digits of a number, at least one; zeros in front are allowed. *)
Definition digits_of (t : text) (n : N) : Prop := t <> [] /\ Forall digit t /\ n = decimal t.
Definition natural (t : text) (n : N) : Prop := exists ds, (t = ds \/ t = 43 :: ds) /\ digits_of ds n.
Definition integer (t : text) (z : Z) : Prop := exists ds n, digits_of ds n /\ ((t = ds \/ t = 43 :: ds) /\ z = Z.of_N n \/ t = 45 :: ds /\ z = (- Z.of_N n)%Z).

Lemma decimal_acc u : forall p, N.pos (Pos.of_uint_acc u p) = fold_left (fun n c => 10 * n + (c - 48)) (show_uint u) (N.pos p).
Proof.
  induction u as [|u IH|u IH|u IH|u IH|u IH|u IH|u IH|u IH|u IH|u IH]; intro p; cbn [Pos.of_uint_acc show_uint fold_left]; [reflexivity|..]; rewrite IH; f_equal; lia.
Qed.
Lemma decimal_uint u : N.of_uint u = decimal (show_uint u).
Proof.
  unfold decimal, N.of_uint. induction u as [|u IH|u IH|u IH|u IH|u IH|u IH|u IH|u IH|u IH|u IH]; cbn [Pos.of_uint show_uint fold_left]; [reflexivity|exact IH|..];
  rewrite decimal_acc; reflexivity.
Qed.
Lemma show_digits u : Forall digit (show_uint u).
Proof. induction u; cbn [show_uint]; constructor; try easy; unfold digit; lia. Qed.
Lemma digits_some t u : digits t = Some u -> t = show_uint u.
Proof.
  revert u. induction t as [|c t IH]; intro u; cbn [digits]; [intros [= <-]; reflexivity|]. destruct (digits t) as [v|]; [|discriminate]. specialize (IH v eq_refl).
  destruct c as [|c]; [discriminate|]. do 6 (destruct c as [c|c|]; try discriminate); intros [= <-]; cbn [show_uint]; now rewrite <- IH.
Qed.
Lemma digits_all t : Forall digit t -> exists u, digits t = Some u.
Proof.
  induction 1 as [|c t D F [u IH]]; cbn [digits]; [eauto|]. rewrite IH. unfold digit in D. clear - D.
  assert (c = 48 \/ c = 49 \/ c = 50 \/ c = 51 \/ c = 52 \/ c = 53 \/ c = 54 \/ c = 55 \/ c = 56 \/ c = 57) as H by lia. repeat (destruct H as [->|H]; [eauto|]). subst c; eauto.
Qed.
Lemma magnitude_iff t n : magnitude t = Some n <-> digits_of t n.
Proof.
  unfold digits_of, magnitude. destruct t as [|c t]; [split; [discriminate|now intros []]|]. set (l := c :: t). split.
  - destruct (digits l) as [u|] eqn:E; [|discriminate]. intros [= <-]. apply digits_some in E. rewrite E, decimal_uint. split; [rewrite <- E; discriminate|]. split; [apply show_digits|reflexivity].
  - intros (_ & F & ->). destruct (digits_all _ F) as [u E]. rewrite E. cbn [option_map]. apply digits_some in E. now rewrite E, decimal_uint.
Qed.
Lemma digits_first t n : digits_of t n -> exists c r, t = c :: r /\ digit c.
Proof. intros (NE & F & _). destruct t as [|c r]; [easy|]. inversion F; subst. eauto. Qed.

Ltac digit_cases C := unfold digit in C; match type of C with _ <= ?c <= _ =>
  assert (c = 48 \/ c = 49 \/ c = 50 \/ c = 51 \/ c = 52 \/ c = 53 \/ c = 54 \/ c = 55 \/ c = 56 \/ c = 57) as C' by lia; clear C;
  destruct C' as [->|[->|[->|[->|[->|[->|[->|[->|[->| ->]]]]]]]]] end.
Lemma read_usize_iff t n : read_usize t = Some n <-> natural t n /\ n < 2 ^ 64.
Proof.
  unfold read_usize. split.
  - destruct (magnitude _) as [m|] eqn:E; [|discriminate]. destruct (N.ltb_spec m (2 ^ 64)); [|discriminate]. intros [= <-]. split; [|assumption]. apply magnitude_iff in E.
    destruct t as [|c r]; [exists []; auto|]. destruct (N.eq_dec c 43) as [->|NC]; [exists r; auto|]. exists (c :: r). split; [now left|].
    destruct c as [|c]; [exact E|]. do 6 (destruct c as [c|c|]; try exact E). now destruct NC.
  - intros [(ds & [->| ->] & D) L].
    + destruct (digits_first _ _ D) as (c & r & -> & C). apply magnitude_iff in D. digit_cases C. all: cbv beta iota; rewrite D; now replace (n <? 2 ^ 64) with true by lia.
    + apply magnitude_iff in D. rewrite D. now replace (n <? 2 ^ 64) with true by lia.
Qed.
Lemma read_int_iff bits t z : read_int bits t = Some z <-> integer t z /\ (- 2 ^ (bits - 1) <= z < 2 ^ (bits - 1))%Z.
Proof.
  unfold read_int. split.
  - set (m := match t with 45 :: r => _ | 43 :: r => _ | _ => _ end). destruct m as [y|] eqn:E; [|discriminate].
    destruct ((- 2 ^ (bits - 1) <=? y) && (y <? 2 ^ (bits - 1)))%Z eqn:B; [|discriminate]. intros [= <-]. split; [|lia]. clear B. unfold integer.
    assert (forall s, option_map Z.of_N (magnitude s) = Some y -> exists n, digits_of s n /\ y = Z.of_N n) as G.
    { intros s H. destruct (magnitude s) as [n|] eqn:M; [|discriminate]. injection H as <-. exists n. split; [now apply magnitude_iff|reflexivity]. }
    destruct t as [|c r]; [discriminate E|]. destruct (N.eq_dec c 45) as [->|N1].
    { subst m. destruct (magnitude r) as [n|] eqn:M; [|discriminate E]. injection E as <-. exists r, n. split; [now apply magnitude_iff|]. now right. }
    destruct (N.eq_dec c 43) as [->|N2].
    { subst m. destruct (G _ E) as (n & D & ->). exists r, n. split; [exact D|]. left. split; [now right|reflexivity]. }
    assert (m = option_map Z.of_N (magnitude (c :: r))) as EM.
    { subst m. clear - N1 N2. destruct c as [|c]; [reflexivity|]. do 6 (destruct c as [c|c|]; try reflexivity). all: exfalso; (now apply N1) || (now apply N2). }
    rewrite EM in E. destruct (G _ E) as (n & D & ->). exists (c :: r), n. split; [exact D|]. left. split; [now left|reflexivity].
  - intros [(ds & n & D & H) B]. assert (forall s : Z, (- 2 ^ (bits - 1) <= s < 2 ^ (bits - 1))%Z -> (if ((- 2 ^ (bits - 1) <=? s) && (s <? 2 ^ (bits - 1)))%Z then Some s else None) = Some s) as G.
    { intros s Hs. replace ((- 2 ^ (bits - 1) <=? s) && (s <? 2 ^ (bits - 1)))%Z with true by lia. reflexivity. }
    pose proof D as D'. apply magnitude_iff in D'. destruct H as [[[->| ->] ->]|[-> ->]].
    + destruct (digits_first _ _ D) as (c & r & -> & C). digit_cases C. all: cbv beta iota; rewrite D'; cbn [option_map]; now apply G.
    + rewrite D'. cbn [option_map]. now apply G.
    + rewrite D'. cbn [option_map]. now apply G.
Qed.

(** ** Blocks of child elements *)

(** [run] are all children named [tag], and they are neighbours. *)
Definition block (tag : string) (cs run : list elem) : Prop :=
  exists a b, cs = a ++ run ++ b /\ Forall (fun c => el_tag c = tag) run /\ Forall (fun c => el_tag c <> tag) (a ++ b).

Definition block_of {C} (name : C -> string) (tag : string) (cs run : list C) : Prop :=
  exists a b, cs = a ++ run ++ b /\ Forall (fun c => name c = tag) run /\ Forall (fun c => name c <> tag) (a ++ b).
Definition named {C} (tag : string) (l : list (string * list C)) : list (list C) := the_runs tag (map (fun r => IRun (fst r) (snd r)) l).
Lemma runs_head {C} (name : C -> string) c cs : exists l r, runs name (c :: cs) = (name c, l) :: r.
Proof. cbn [runs]. destruct (runs name cs) as [|[t l] r]; [eauto|]. destruct (String.eqb_spec (name c) t) as [<-|]; eauto. Qed.
Lemma named_cons {C} tag t (l : list C) r : named tag ((t, l) :: r) = if String.eqb t tag then l :: named tag r else named tag r.
Proof. reflexivity. Qed.
Lemma named_other {C} (name : C -> string) tag c cs : name c <> tag -> named tag (runs name (c :: cs)) = named tag (runs name cs).
Proof.
  intro N. cbn [runs]. destruct (runs name cs) as [|[t l] r].
  - rewrite named_cons. destruct (String.eqb_spec (name c) tag); [easy|reflexivity].
  - destruct (String.eqb_spec (name c) t) as [<-|]; rewrite !named_cons; destruct (String.eqb_spec (name c) tag); easy.
Qed.
Lemma named_nil {C} (name : C -> string) tag cs : named tag (runs name cs) = [] <-> Forall (fun c => name c <> tag) cs.
Proof.
  induction cs as [|c cs IH]; [split; [constructor|reflexivity]|]. destruct (String.eqb_spec (name c) tag) as [E|N].
  - destruct (runs_head name c cs) as (l & r & R). rewrite R, named_cons, E, String.eqb_refl. split; [discriminate|]. intro F. inversion F; easy.
  - rewrite named_other by exact N. rewrite IH. split; [now constructor|]. intro F. now inversion F.
Qed.
Lemma named_same {C} (name : C -> string) tag c cs : name c = tag -> named tag (runs name (c :: cs)) =
  match cs with
  | d :: _ => if String.eqb (name d) tag then match named tag (runs name cs) with l :: r => (c :: l) :: r | [] => [[c]] end else [c] :: named tag (runs name cs)
  | [] => [[c]]
  end.
Proof.
  intros <-. cbn [runs]. destruct cs as [|d cs]; [cbn; now rewrite String.eqb_refl|]. destruct (runs_head name d cs) as (l & r & R). rewrite R.
  rewrite String.eqb_sym. destruct (String.eqb_spec (name d) (name c)) as [->|N].
  - rewrite !named_cons, String.eqb_refl. reflexivity.
  - rewrite named_cons, String.eqb_refl. reflexivity.
Qed.
Lemma named_one {C} (name : C -> string) tag cs run : named tag (runs name cs) = [run] <-> run <> [] /\ block_of name tag cs run.
Proof.
  revert run. induction cs as [|c cs IH]; intro run.
  { split; [discriminate|]. intros [NE (a & b & E & _)]. destruct a; [|discriminate E]. destruct run; [easy|discriminate E]. }
  destruct (String.eqb_spec (name c) tag) as [E|N].
  - rewrite named_same by exact E. split.
    + destruct cs as [|d cs].
      { intros [= <-]. split; [discriminate|]. exists [], []. repeat split; [now constructor|constructor]. }
      destruct (String.eqb_spec (name d) tag) as [ED|ND].
      * destruct (named tag (runs name (d :: cs))) as [|l [|]] eqn:M; try discriminate.
        { intros [= <-]. apply named_nil in M. inversion M; easy. }
        intros [= <-]. destruct (proj1 (IH l) eq_refl) as (NE & a & b & EQ & FR & FO). split; [discriminate|]. destruct a as [|x a].
        -- exists [], b. cbn [List.app] in *. rewrite EQ. repeat split; [now constructor|exact FO].
        -- injection EQ as <- _. inversion FO; easy.
      * intro H. assert ([c] = run /\ named tag (runs name (d :: cs)) = []) as [<- M] by now inversion H. apply named_nil in M. split; [discriminate|]. exists [], (d :: cs). repeat split; [now constructor|exact M].
    + intros (NE & a & b & EQ & FR & FO). destruct a as [|x a].
      2:{ injection EQ as <- _. inversion FO; easy. }
      cbn [List.app] in *. destruct run as [|r run]; [easy|]. injection EQ as <- EQ. inversion FR as [|? ? _ FR']; subst. destruct run as [|d run].
      * cbn [List.app] in *. destruct b as [|d b]; [reflexivity|]. inversion FO as [|? ? N' FO']; subst. apply named_nil in FO.
        cbn [List.app] in *. cbv iota. destruct (String.eqb_spec (name d) (name c)); [easy|]. now rewrite FO.
      * cbn [List.app] in *. inversion FR' as [|? ? ED _]; subst. rewrite ED, String.eqb_refl. replace (named (name c) (runs name (d :: run ++ b))) with [d :: run]; [reflexivity|].
        symmetry. apply IH. split; [discriminate|]. exists [], b. repeat split; assumption.
  - rewrite named_other by exact N. rewrite IH. split; intros (NE & a & b & EQ & FR & FO); (split; [exact NE|]).
    + exists (c :: a), b. cbn [List.app]. rewrite EQ. repeat split; [exact FR|now constructor].
    + destruct a as [|x a].
      * destruct run as [|r run]; [easy|]. injection EQ as <- _. inversion FR; easy.
      * injection EQ as <- EQ. exists a, b. repeat split; [exact EQ|exact FR|now inversion FO].
Qed.
Lemma block_nil {C} (name : C -> string) tag cs : block_of name tag cs [] <-> Forall (fun c => name c <> tag) cs.
Proof. split; [intros (a & b & -> & _ & F); exact F|]. intro F. exists [], cs. repeat split; [constructor|exact F]. Qed.

Lemma vec_iff {C} (name : C -> string) tag attrs cs run : vec_field tag (items name attrs cs) = XOk run <-> run <> [] /\ block_of name tag cs run.
Proof.
  unfold items. rewrite vec_attrs. unfold vec_field. fold (named tag (runs name cs)). rewrite <- named_one. destruct (named tag (runs name cs)) as [|l [|l' r]]; split; try discriminate; congruence.
Qed.
Lemma vec_runs_iff {C} (name : C -> string) tag cs run :
  vec_field tag (map (fun r => IRun (fst r) (snd r)) (runs name cs)) = XOk run <-> run <> [] /\ block_of name tag cs run.
Proof. exact (vec_iff name tag [] cs run). Qed.
Lemma default_iff tag e run : default_field tag (elem_items e) = XOk run <-> block tag (el_children e) run.
Proof.
  unfold default_field. rewrite the_runs_elems. fold (named tag (runs el_tag (el_children e))). destruct run as [|r run].
  - transitivity (named tag (runs el_tag (el_children e)) = []); [|rewrite named_nil; symmetry; exact (block_nil el_tag tag _)].
    destruct (named tag (runs el_tag (el_children e))) as [|l [|]] eqn:M; split; try easy. intros [= ->]. exfalso. apply named_one in M. now destruct M.
  - transitivity (named tag (runs el_tag (el_children e)) = [r :: run]); [destruct (named tag (runs el_tag (el_children e))) as [|l [|]]; split; try discriminate; congruence|].
    rewrite named_one. split; [now intros []|]. split; [discriminate|assumption].
Qed.
Lemma one_iff tag e c : one_field tag (elem_items e) = XOk c <-> block tag (el_children e) [c].
Proof.
  unfold one_field. rewrite the_runs_elems. fold (named tag (runs el_tag (el_children e))).
  transitivity (named tag (runs el_tag (el_children e)) = [[c]]); [destruct (named tag (runs el_tag (el_children e))) as [|[|x [|]] [|]]; split; try discriminate; congruence|].
  rewrite named_one. split; [now intros []|]. split; [discriminate|assumption].
Qed.

(** ** Attributes *)
Lemma attr_iff k attrs v : NoDup (map fst attrs) -> (attr k attrs = Some v <-> In (k, v) attrs).
Proof.
  intro ND. split; [apply attr_in|]. induction attrs as [|[k' w] l IH]; [easy|]. cbn [map fst] in ND. apply NoDup_cons_iff in ND as [NI ND]. intros [[= -> ->]|I]; cbn [attr].
  - now rewrite String.eqb_refl.
  - destruct (String.eqb_spec k' k) as [->|]; [|auto]. destruct NI. apply in_map_iff. exists (k, v). auto.
Qed.
Lemma attr_none k attrs : attr k attrs = None <-> ~ In k (map fst attrs).
Proof.
  split; [|apply attr_notin]. induction attrs as [|[k' w] l IH]; [easy|]. cbn [attr map fst In]. destruct (String.eqb_spec k' k); [discriminate|]. intros H [E|I]; [easy|]. now apply IH.
Qed.

(** The kinds of values, whether an attribute is needed, and the tables *)
Inductive sort := Text | Int (bits : Z) | Float.
Definition table := list (string * sort * bool).
Definition needed (k : string) (s : sort) : string * sort * bool := (k, s, true).
Definition maybe (k : string) (s : sort) : string * sort * bool := (k, s, false).
Definition track_table : table :=
  [needed "TrackID" (Int 32); maybe "Name" Text; maybe "Artist" Text; maybe "Composer" Text; maybe "Album" Text; maybe "Grouping" Text; maybe "Genre" Text;
   maybe "Kind" Text; maybe "Size" (Int 64); maybe "TotalTime" Float; maybe "DiscNumber" (Int 32); maybe "TrackNumber" (Int 32); maybe "Year" (Int 32);
   maybe "AverageBpm" Float; maybe "DateModified" Text; maybe "DateAdded" Text; maybe "BitRate" (Int 32); maybe "SampleRate" Float; maybe "Comments" Text;
   maybe "PlayCount" (Int 32); maybe "LastPlayed" Text; maybe "Rating" (Int 32); needed "Location" Text; maybe "Remixer" Text; maybe "Tonality" Text;
   maybe "Label" Text; maybe "Mix" Text; maybe "Colour" Text].
Definition tempo_table : table := [needed "Inizio" Float; needed "Bpm" Float; needed "Metro" Text; needed "Battito" (Int 32)].
Definition mark_table : table := [needed "Name" Text; needed "Type" (Int 32); needed "Start" Float; maybe "End" Float; needed "Num" (Int 32)].
Definition product_table : table := [needed "Name" Text; needed "Version" Text; needed "Company" Text].

Definition sort_of (k : akind) : sort := match k with AStr => Text | AI32 => Int 32 | AI64 => Int 64 | AF64 => Float end.
Definition table_of (s : aschema) : table := map (fun f => (fst (fst f), sort_of (snd (fst f)), match snd f with Req => true | _ => false end)) s.

(** No element in the tree has two attributes of one name (XML requires this). *)
Fixpoint proper (e : elem) : Prop :=
  match e with El _ attrs cs => NoDup (map fst attrs) /\ fold_right (fun c P => proper c /\ P) True cs end.
Lemma proper_attrs e : proper e -> NoDup (map fst (el_attrs e)).
Proof. destruct e. now intros []. Qed.
Lemma proper_children e : proper e -> Forall proper (el_children e).
Proof. destruct e as [t a cs]. cbn [el_children proper]. intros [_ H]. induction cs as [|c cs IH]; constructor; cbn [fold_right] in H; tauto. Qed.
Lemma proper_block tag e run : proper e -> block tag (el_children e) run -> Forall proper run.
Proof. intros P (a & b & E & _). apply proper_children in P. rewrite E in P. apply Forall_app in P as [_ P]. now apply Forall_app in P as [P _]. Qed.

Section Reading.
  Context (F : Type) (readF : text -> option F).
  Notation xval := (xval F).

  (** The text of an attribute stands for a value. *)
  Definition stands (s : sort) (t : text) (v : xval) : Prop :=
    match s with
    | Text => v = XS F t
    | Int bits => exists z, v = XI F z /\ integer t z /\ (- 2 ^ (bits - 1) <= z < 2 ^ (bits - 1))%Z
    | Float => exists f, v = XF F f /\ readF t = Some f
    end.
  (** What the attributes say of one entry of a table *)
  Definition says (attrs : list (string * text)) (f : string * sort * bool) (v : xval) : Prop :=
    let '(k, s, need) := f in
    (exists t, In (k, t) attrs /\ stands s t v) \/ (~ In k (map fst attrs) /\ need = false /\ v = XNone F).
  Definition tells (tab : table) (e : elem) (vs : list xval) : Prop := Forall2 (says (el_attrs e)) tab vs.

  Definition is_track (e : elem) (t : track F) : Prop :=
    tells track_table e (t_attrs F t) /\
    (exists run, block "TEMPO" (el_children e) run /\ Forall2 (tells tempo_table) run (t_tempos F t)) /\
    (exists run, block "POSITION_MARK" (el_children e) run /\ Forall2 (tells mark_table) run (t_marks F t)).

  Lemma read_val_iff k t v : read_val F readF k t = Some v <-> stands (sort_of k) t v.
  Proof.
    destruct k; cbn [read_val sort_of stands]; [split; congruence|..].
    1,2: split; [destruct (read_int _ t) as [z|] eqn:E; [|discriminate]; intros [= <-]; apply read_int_iff in E; eauto|intros (z & -> & H); apply read_int_iff in H; now rewrite H].
    split; [destruct (readF t) as [f|]; [|discriminate]; intros [= <-]; eauto|intros (f & -> & H); now rewrite H].
  Qed.
  Lemma read_attr_iff f attrs v : NoDup (map fst attrs) ->
    (read_attr F readF f attrs = XOk v <-> says attrs (fst (fst f), sort_of (snd (fst f)), match snd f with Req => true | _ => false end) v).
  Proof.
    intro ND. destruct f as [[k kind] p]. cbn [fst snd says]. unfold read_attr. destruct (attr k attrs) as [t|] eqn:E.
    - apply (attr_iff k attrs t ND) in E. split.
      + destruct (read_val F readF kind t) as [w|] eqn:R; [|discriminate]. intros [= <-]. left. exists t. split; [exact E|now apply read_val_iff].
      + intros [(t' & I & S)|[NI _]]; [|destruct NI; apply in_map_iff; exists (k, t); auto].
        apply (attr_iff k attrs _ ND) in E, I. assert (t' = t) by congruence. subst t'. apply read_val_iff in S. now rewrite S.
    - assert (~ In k (map fst attrs)) as NI by now apply attr_none. split.
      + intro H. right. split; [exact NI|]. destruct p; [discriminate H|..]; now injection H as <-.
      + intros [(t & I & _)|(_ & N & ->)]; [destruct NI; apply in_map_iff; exists (k, t); auto|]. now destruct p.
  Qed.
  Lemma Forall2_map_l {A B C} (R : B -> C -> Prop) (g : A -> B) l l' : Forall2 R (map g l) l' <-> Forall2 (fun x y => R (g x) y) l l'.
  Proof.
    revert l'. induction l as [|x l IH]; intro l'; cbn [map]; split; intro H; inversion H; subst; constructor; auto; now apply IH.
  Qed.
  Lemma Forall2_swap {A B} (R S : A -> B -> Prop) l l' : Forall (fun x => forall y, R x y <-> S x y) l -> (Forall2 R l l' <-> Forall2 S l l').
  Proof.
    intro H. revert l'. induction H as [|x l H1 H2 IH]; intro l'; split; intro G; inversion G; subst; constructor; try (now apply H1); now apply IH.
  Qed.
  Lemma read_attrs_iff s e vs : NoDup (map fst (el_attrs e)) -> (read_attrs F readF s (el_attrs e) = XOk vs <-> tells (table_of s) e vs).
  Proof.
    intro ND. unfold read_attrs, tells, table_of. rewrite xall_ok, Forall2_map_l. apply Forall2_swap. apply Forall_forall. intros f _ v. now apply read_attr_iff.
  Qed.
  Lemma read_all_iff s run vss : Forall proper run -> (xall (fun c => read_attrs F readF s (el_attrs c)) run = XOk vss <-> Forall2 (tells (table_of s)) run vss).
  Proof. intro P. rewrite xall_ok. apply Forall2_swap. eapply Forall_impl; [|exact P]. intros e Pe vs. apply read_attrs_iff. now apply proper_attrs. Qed.
  Lemma xbind_ok {A B} (r : xres A) (f : A -> xres B) b : xbind r f = XOk b <-> exists a, r = XOk a /\ f a = XOk b.
  Proof. destruct r as [a|e]; cbn [xbind]; split; [eauto|intros (a' & [= <-] & H); exact H|discriminate|intros (a' & H & _); discriminate]. Qed.

  Lemma track_table_ok : table_of track_attrs = track_table. Proof. reflexivity. Qed.
  Lemma tempo_table_ok : table_of tempo_attrs = tempo_table. Proof. reflexivity. Qed.
  Lemma mark_table_ok : table_of mark_attrs = mark_table. Proof. reflexivity. Qed.
  Lemma product_table_ok : table_of product_attrs = product_table. Proof. reflexivity. Qed.

  Lemma read_track_iff e t : proper e -> (read_track F readF e = XOk t <-> is_track e t).
  Proof.
    intro P. unfold read_track, is_track. split.
    - intro H. apply xbind_ok in H as (a & HA & H). apply xbind_ok in H as (ts & HT & H). apply xbind_ok in H as (ms & HM & H). injection H as <-. cbn [t_attrs t_tempos t_marks].
      apply xbind_ok in HT as (rt & RT & HT). apply xbind_ok in HM as (rm & RM & HM). apply default_iff in RT, RM.
      apply (read_attrs_iff track_attrs e a (proper_attrs _ P)) in HA. apply (read_all_iff tempo_attrs rt ts (proper_block _ _ _ P RT)) in HT. apply (read_all_iff mark_attrs rm ms (proper_block _ _ _ P RM)) in HM. eauto 8.
    - destruct t as [a ts ms]. cbn [t_attrs t_tempos t_marks]. intros (HA & (rt & RT & HT) & (rm & RM & HM)).
      apply (read_attrs_iff track_attrs e a (proper_attrs _ P)) in HA. rewrite HA. cbn [xbind].
      apply (read_all_iff tempo_attrs rt ts (proper_block _ _ _ P RT)) in HT. apply (read_all_iff mark_attrs rm ms (proper_block _ _ _ P RM)) in HM.
      apply default_iff in RT, RM. rewrite RT, RM. cbn [xbind]. now rewrite HT, HM.
  Qed.
End Reading.

(** ** Playlist nodes *)
Definition holds (e : elem) (k : string) (t : text) : Prop := In (k, t) (el_attrs e).
Definition counts (e : elem) (k : string) : Prop := exists t n, holds e k t /\ natural t n /\ n < 2 ^ 64.
Definition is_entry (e : elem) (z : Z) : Prop := exists t, holds e "Key" t /\ integer t z /\ (- 2 ^ 31 <= z < 2 ^ 31)%Z.
Inductive is_node : elem -> xnode -> Prop :=
| folder_node : forall e name run nodes, holds e "Type" [48] -> holds e "Name" name -> counts e "Count" ->
    run <> [] -> block "NODE" (el_children e) run -> Forall2 is_node run nodes -> is_node e (XFolder name nodes)
| playlist_node : forall e name keytype run tracks, holds e "Type" [49] -> holds e "Name" name -> counts e "Entries" -> holds e "KeyType" keytype ->
    run <> [] -> block "TRACK" (el_children e) run -> Forall2 is_entry run tracks -> is_node e (XPlaylist name keytype tracks).

(** Only the documented attributes, and the counts are numbers, here and in the nodes below *)
Definition plain_attr (a : string * text) : Prop :=
  (fst a = "Name" \/ fst a = "Type" \/ fst a = "KeyType" \/ ((fst a = "Count" \/ fst a = "Entries") /\ exists n, natural (snd a) n /\ n < 2 ^ 64))%string.
Fixpoint plain (e : elem) : Prop :=
  match e with El _ attrs cs => Forall plain_attr attrs /\ fold_right (fun c P => (el_tag c = "NODE"%string -> plain c) /\ P) True cs end.
Lemma plain_known a : plain_attr a -> known a.
Proof. intros [H|[H|[H|[H [n G]]]]]; unfold known; auto. do 3 right. split; [exact H|]. exists n. now apply read_usize_iff. Qed.
Lemma plain_children e : plain e -> Forall (fun c => el_tag c = "NODE"%string -> plain c) (el_children e).
Proof. destruct e as [t a cs]. cbn [el_children plain]. intros [_ H]. induction cs as [|c cs IH]; constructor; cbn [fold_right] in H; tauto. Qed.
Lemma plain_block e run : plain e -> block "NODE" (el_children e) run -> Forall plain run.
Proof.
  intros P (a & b & E & FR & _). apply plain_children in P. rewrite E in P. apply Forall_app in P as [_ P]. apply Forall_app in P as [P _].
  rewrite Forall_forall in *. intros x I. apply P; auto.
Qed.
Lemma elem_ind2 (P : elem -> Prop) : (forall t a cs, Forall P cs -> P (El t a cs)) -> forall e, P e.
Proof. intro H. fix IH 1. intros [t a cs]. apply H. induction cs as [|c cs IHc]; constructor; [apply IH|exact IHc]. Qed.

Lemma block_map {A C} (g : A -> C) (name : C -> string) tag cs run' :
  block_of name tag (map g cs) run' <-> exists run, run' = map g run /\ block_of (fun x => name (g x)) tag cs run.
Proof.
  split.
  - intros (a & b & E & FR & FO). apply map_eq_app in E as (a' & r & -> & <- & E). apply map_eq_app in E as (run & b' & -> & <- & <-). exists run. split; [reflexivity|].
    exists a', b'. split; [reflexivity|]. rewrite <- map_app in FO. rewrite Forall_map in FR, FO. auto.
  - intros (run & -> & a & b & -> & FR & FO). exists (map g a), (map g b). rewrite !map_app. split; [reflexivity|]. rewrite <- map_app. rewrite !Forall_map. auto.
Qed.
Definition with_node (c : elem) : child := (c, read_node c).
Lemma vec_children_iff tag cs run' : vec_field tag (run_items cs) = XOk run' <-> exists run, run' = map with_node run /\ run <> [] /\ block tag cs run.
Proof.
  unfold run_items. fold with_node. rewrite vec_runs_iff. change (fun c : elem => (c, read_node c)) with with_node. rewrite block_map. split.
  - intros (NE & run & -> & B). exists run. repeat split; [intros ->; now apply NE|exact B].
  - intros (run & -> & NE & B). split; [now apply map_nonempty|]. exists run. split; [reflexivity|exact B].
Qed.
Lemma visit_runs cs s t : visit (run_items cs) s <> XOk t.
Proof. unfold run_items. destruct (runs _ _) as [|r rs]; discriminate. Qed.
Lemma text_eqb_iff a b : text_eqb a b = true <-> a = b.
Proof. unfold text_eqb. destruct (list_eq_dec N.eq_dec a b); split; easy. Qed.

Lemma read_entry_iff e z : proper e -> (read_entry e = XOk z <-> is_entry e z).
Proof.
  intro P. apply proper_attrs in P. unfold read_entry, is_entry, holds. split.
  - destruct (attr "Key" (el_attrs e)) as [t|] eqn:E; [|discriminate]. apply (attr_iff _ _ _ P) in E. destruct (read_int 32 t) as [y|] eqn:R; [|discriminate]. intros [= <-].
    apply read_int_iff in R as [R1 R2]. eauto.
  - intros (t & I & H). apply (attr_iff _ _ _ P) in I. rewrite I. replace (read_int 32 t) with (Some z); [reflexivity|]. symmetry. now apply read_int_iff.
Qed.
Lemma counts_iff e k : proper e -> (counts e k <-> exists n, num k (el_attrs e) = Some n).
Proof.
  intro P. apply proper_attrs in P. unfold counts, holds, num. split.
  - intros (t & n & I & H). apply (attr_iff _ _ _ P) in I. rewrite I. exists n. now apply read_usize_iff.
  - intros (n & H). destruct (attr k (el_attrs e)) as [t|] eqn:E; [|discriminate]. exists t, n. apply (attr_iff _ _ _ P) in E. split; [exact E|]. now apply read_usize_iff.
Qed.

Lemma read_node_iff e : proper e -> plain e -> forall t, read_node e = XOk t <-> is_node e t.
Proof.
  induction e as [tag attrs cs IH] using elem_ind2. intros PR PL t. pose proof (proper_attrs _ PR) as ND. cbn [el_attrs] in ND.
  assert (Forall known attrs) as K by (destruct PL as [PA _]; eapply Forall_impl; [exact plain_known|exact PA]).
  assert (forall run, block "NODE" cs run -> Forall (fun c => forall t, read_node c = XOk t <-> is_node c t) run) as IHR.
  { intros run B. pose proof (proper_block _ (El tag attrs cs) run PR B) as P1. pose proof (plain_block (El tag attrs cs) run PL B) as P2. destruct B as (a & b & -> & _).
    apply Forall_app in IH as [_ IH]. apply Forall_app in IH as [IH _]. rewrite Forall_forall in *. intros x I. apply IH; auto. }
  split.
  - rewrite (read_known tag attrs cs K ND). unfold conclude, merged, no_vars. cbn [v_type v_name v_count v_key_type v_entries]. unfold or_else.
    destruct (attr "Type" attrs) as [ty|] eqn:ET; [|intro H; now apply visit_runs in H]. destruct (text_eqb ty [48]) eqn:E0.
    { apply text_eqb_iff in E0. subst ty. destruct (attr "Name" attrs) as [name|] eqn:EN; [|intro H; now apply visit_runs in H].
      destruct (num "Count" attrs) as [n|] eqn:EC; [|intro H; now apply visit_runs in H]. destruct (vec_field "NODE" (run_items cs)) as [run'|] eqn:V; [|discriminate].
      apply vec_children_iff in V as (run & -> & NE & B). rewrite xall_mapped. cbn [snd with_node]. destruct (xall _ run) as [nodes|] eqn:X; [|discriminate]. intros [= <-].
      apply xall_ok in X. eapply folder_node; [now apply attr_iff|now apply attr_iff|apply counts_iff; [exact PR|eauto]|exact NE|exact B|].
      exact (proj1 (Forall2_swap _ _ run nodes (IHR run B)) X). }
    destruct (text_eqb ty [49]) eqn:E1; [|discriminate]. apply text_eqb_iff in E1. subst ty. destruct (attr "Name" attrs) as [name|] eqn:EN; [|intro H; now apply visit_runs in H].
    destruct (num "Entries" attrs) as [n|] eqn:EC; [|intro H; now apply visit_runs in H]. destruct (attr "KeyType" attrs) as [kt|] eqn:EK; [|intro H; now apply visit_runs in H].
    destruct (vec_field "TRACK" (run_items cs)) as [run'|] eqn:V; [|discriminate].
    apply vec_children_iff in V as (run & -> & NE & B). rewrite xall_mapped. cbn [fst with_node]. destruct (xall _ run) as [tracks|] eqn:X; [|discriminate]. intros [= <-].
    apply xall_ok in X. eapply playlist_node; [now apply attr_iff|now apply attr_iff|apply counts_iff; [exact PR|eauto]|now apply attr_iff|exact NE|exact B|].
    pose proof (proper_block _ (El tag attrs cs) run PR B) as P1. refine (proj1 (Forall2_swap _ _ run tracks _) X). eapply Forall_impl; [|exact P1]. intros c Pc z. now apply read_entry_iff.
  - intro H. inversion H as [e name run nodes HT HN HC NE B X|e name kt run tracks HT HN HC HK NE B X]; subst; apply (counts_iff _ _ PR) in HC as [n HC]; cbn [el_attrs el_children] in *.
    + rewrite (read_folder tag attrs cs name n K ND); [|now apply attr_iff|now apply attr_iff|exact HC].
      replace (vec_field "NODE" (run_items cs)) with (XOk (map with_node run)) by (symmetry; apply vec_children_iff; eauto).
      rewrite xall_mapped. cbn [snd with_node]. apply (proj2 (Forall2_swap _ _ run nodes (IHR run B))) in X. apply xall_ok in X. replace (xall _ run) with (XOk nodes) by (symmetry; exact X). reflexivity.
    + rewrite (read_playlist tag attrs cs name n kt K ND); [|now apply attr_iff|now apply attr_iff|exact HC|now apply attr_iff].
      replace (vec_field "TRACK" (run_items cs)) with (XOk (map with_node run)) by (symmetry; apply vec_children_iff; eauto).
      rewrite xall_mapped. cbn [fst with_node]. pose proof (proper_block _ (El tag attrs cs) run PR B) as P1.
      replace (xall _ run) with (XOk tracks); [reflexivity|]. symmetry. apply xall_ok. refine (proj2 (Forall2_swap _ _ run tracks _) X).
      eapply Forall_impl; [|exact P1]. intros c Pc z. now apply read_entry_iff.
Qed.

(** ** Documents *)
Section Documents.
  Context (F : Type) (readF : text -> option F).
  Definition is_doc (e : elem) (d : document F) : Prop :=
    holds e "Version" (d_version F d) /\
    (exists p, block "PRODUCT" (el_children e) [p] /\ tells F readF product_table p (d_product F d)) /\
    (exists c, block "COLLECTION" (el_children e) [c] /\ (exists t, holds c "Entries" t /\ integer t (d_entries F d) /\ (- 2 ^ 31 <= d_entries F d < 2 ^ 31)%Z) /\
      exists run, run <> [] /\ block "TRACK" (el_children c) run /\ Forall2 (is_track F readF) run (d_tracks F d)) /\
    (exists l root, block "PLAYLISTS" (el_children e) [l] /\ block "NODE" (el_children l) [root] /\ holds root "Name" (d_root F d) /\
      exists run, run <> [] /\ block "NODE" (el_children root) run /\ Forall2 is_node run (d_nodes F d)).
  (** All nodes below the root node are plain. *)
  Definition plain_doc (e : elem) : Prop := forall l root c,
    In l (el_children e) -> el_tag l = "PLAYLISTS"%string -> In root (el_children l) -> el_tag root = "NODE"%string -> In c (el_children root) -> el_tag c = "NODE"%string -> plain c.

  Lemma block_in tag cs run c : block tag cs run -> In c run -> In c cs /\ el_tag c = tag.
  Proof. intros (a & b & -> & FR & _) I. split; [rewrite !in_app_iff; auto|]. rewrite Forall_forall in FR. auto. Qed.
  Lemma read_root_iff e name nodes : proper e -> (forall c, In c (el_children e) -> el_tag c = "NODE"%string -> plain c) ->
    (read_root e = XOk (name, nodes) <-> holds e "Name" name /\ exists run, run <> [] /\ block "NODE" (el_children e) run /\ Forall2 is_node run nodes).
  Proof.
    intros PR PL. pose proof (proper_attrs _ PR) as ND. unfold read_root, holds.
    assert (forall run, block "NODE" (el_children e) run -> Forall (fun c => forall t, read_node c = XOk t <-> is_node c t) run) as IHR.
    { intros run B. pose proof (proper_block _ e run PR B) as P1. rewrite Forall_forall in *. intros x I. destruct (block_in _ _ _ x B I). apply read_node_iff; auto. }
    assert (forall run', vec_field "NODE" (items child_tag (el_attrs e) (map with_node (el_children e))) = XOk run' <->
      exists run, run' = map with_node run /\ run <> [] /\ block "NODE" (el_children e) run) as VI.
    { intro run'. rewrite <- vec_children_iff. unfold items. now rewrite vec_attrs. }
    change (fun c : elem => (c, read_node c)) with with_node. split.
    - destruct (attr "Name" (el_attrs e)) as [nm|] eqn:EN; [|discriminate]. apply (attr_iff _ _ _ ND) in EN.
      destruct (vec_field _ _) as [run'|] eqn:V; [|discriminate]. pose proof (proj1 (VI run') eq_refl) as (run & -> & NE & B). rewrite xall_mapped. cbn [snd with_node].
      destruct (xall _ run) as [ns|] eqn:X; [|discriminate]. intros [= <- <-]. split; [exact EN|]. exists run. repeat split; [exact NE|exact B|].
      apply xall_ok in X. exact (proj1 (Forall2_swap _ _ run ns (IHR run B)) X).
    - intros (HN & run & NE & B & X). apply (attr_iff _ _ _ ND) in HN. rewrite HN. replace (vec_field _ _) with (XOk (map with_node run)) by (symmetry; apply VI; eauto).
      rewrite xall_mapped. cbn [snd with_node]. apply (proj2 (Forall2_swap _ _ run nodes (IHR run B))) in X. apply xall_ok in X. replace (xall _ run) with (XOk nodes) by (symmetry; exact X). reflexivity.
  Qed.
  Lemma proper_in e c : proper e -> In c (el_children e) -> proper c.
  Proof. intros P I. apply proper_children in P. rewrite Forall_forall in P. auto. Qed.
  Lemma one_text e k vs : proper e -> (read_attrs F readF [(k, AStr, Req)] (el_attrs e) = XOk vs <-> exists t, vs = [XS F t] /\ holds e k t).
  Proof.
    intro P. rewrite (read_attrs_iff F readF _ e vs (proper_attrs _ P)). unfold tells, holds. cbn [table_of map fst snd sort_of]. split.
    - intro H. inversion H as [|? v ? vs' S R]; subst. inversion R; subst. destruct S as [(t & I & S)|(_ & N & _)]; [|discriminate N]. cbn in S. subst v. eauto.
    - intros (t & -> & I). constructor; [|constructor]. left. exists t. split; [exact I|reflexivity].
  Qed.
  Lemma one_int e k vs : proper e -> (read_attrs F readF [(k, AI32, Req)] (el_attrs e) = XOk vs <->
    exists z, vs = [XI F z] /\ exists t, holds e k t /\ integer t z /\ (- 2 ^ 31 <= z < 2 ^ 31)%Z).
  Proof.
    intro P. rewrite (read_attrs_iff F readF _ e vs (proper_attrs _ P)). unfold tells, holds. cbn [table_of map fst snd sort_of]. split.
    - intro H. inversion H as [|? v ? vs' S R]; subst. inversion R; subst. destruct S as [(t & I & z & -> & S)|(_ & N & _)]; [|discriminate N]. eauto.
    - intros (z & -> & t & I & H). constructor; [|constructor]. left. exists t. split; [exact I|]. exists z. auto.
  Qed.
  Lemma read_doc_iff e d : proper e -> plain_doc e -> (read_doc F readF e = XOk d <-> is_doc e d).
  Proof.
    intros PR PL. unfold read_doc, is_doc.
    assert (forall c, block "COLLECTION" (el_children e) [c] -> proper c) as PC by (intros c B; eapply proper_in; [exact PR|]; now apply (block_in _ _ _ c B); left).
    assert (forall c, block "PRODUCT" (el_children e) [c] -> proper c) as PP by (intros c B; eapply proper_in; [exact PR|]; now apply (block_in _ _ _ c B); left).
    assert (forall l root, block "PLAYLISTS" (el_children e) [l] -> block "NODE" (el_children l) [root] -> forall name nodes, read_root root = XOk (name, nodes) <->
      holds root "Name" name /\ exists run, run <> [] /\ block "NODE" (el_children root) run /\ Forall2 is_node run nodes) as RR.
    { intros l root B1 B2 name nodes. destruct (block_in _ _ _ l B1 (or_introl eq_refl)) as [I1 T1]. destruct (block_in _ _ _ root B2 (or_introl eq_refl)) as [I2 T2].
      apply read_root_iff; [eapply proper_in; [eapply proper_in; [exact PR|exact I1]|exact I2]|]. intros c I3 T3. now apply (PL l root c). }
    assert (forall c run ts, proper c -> block "TRACK" (el_children c) run -> (xall (read_track F readF) run = XOk ts <-> Forall2 (is_track F readF) run ts)) as TT.
    { intros c run ts Pc B. rewrite xall_ok. apply Forall2_swap. eapply Forall_impl; [|exact (proper_block _ _ _ Pc B)]. intros x Px y. now apply read_track_iff. }
    split.
    - intro H. apply xbind_ok in H as (v & HV & H). apply xbind_ok in H as (p & HP & H). apply xbind_ok in H as (c & HC & H). apply xbind_ok in H as (en & HE & H).
      apply xbind_ok in H as (ts & HT & H). apply xbind_ok in H as ((name & nodes) & HR & H).
      apply (one_text _ _ _ PR) in HV as (ver & -> & HV). apply xbind_ok in HP as (pe & BP & HP). apply one_iff in BP, HC. apply (one_int _ _ _ (PC _ HC)) in HE as (z & -> & HE).
      injection H as <-. cbn [d_version d_product d_entries d_tracks d_root d_nodes fst snd]. split; [exact HV|]. split.
      { exists pe. split; [exact BP|]. now apply (read_attrs_iff F readF product_attrs pe p (proper_attrs _ (PP _ BP))) in HP. }
      split.
      { exists c. split; [exact HC|]. split; [exact HE|]. apply xbind_ok in HT as (run & V & HT). apply vec_iff in V as [NE B]. exists run. split; [exact NE|]. split; [exact B|].
        now apply (TT c run ts (PC _ HC) B). }
      apply xbind_ok in HR as (l & BL & HR). apply xbind_ok in HR as (root & BN & HR). apply one_iff in BL, BN. exists l, root. split; [exact BL|]. split; [exact BN|]. now apply (RR l root BL BN).
    - destruct d as [ver p z ts name nodes]. cbn [d_version d_product d_entries d_tracks d_root d_nodes].
      intros (HV & (pe & BP & HP) & (c & BC & HE & run & NE & B & HT) & (l & root & BL & BN & HR)).
      replace (read_attrs F readF [("Version"%string, AStr, Req)] (el_attrs e)) with (XOk [XS F ver]) by (symmetry; apply one_text; eauto).
      cbn [xbind]. pose proof BP as BP'. apply one_iff in BP'. rewrite BP'. cbn [xbind].
      apply (read_attrs_iff F readF product_attrs pe p (proper_attrs _ (PP _ BP))) in HP. rewrite HP. cbn [xbind]. pose proof BC as BC'. apply one_iff in BC'. rewrite BC'. cbn [xbind].
      replace (read_attrs F readF [("Entries"%string, AI32, Req)] (el_attrs c)) with (XOk [XI F z]) by (symmetry; apply one_int; eauto). cbn [xbind].
      replace (vec_field "TRACK" (elem_items c)) with (XOk run) by (symmetry; apply vec_iff; split; assumption). cbn [xbind]. apply (TT c run ts (PC _ BC) B) in HT. rewrite HT. cbn [xbind].
      apply (RR l root BL BN) in HR. apply one_iff in BL, BN. rewrite BL. cbn [xbind]. rewrite BN. cbn [xbind]. rewrite HR. reflexivity.
  Qed.
End Documents.
