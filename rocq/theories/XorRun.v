(** * Readers of analysis files as programs over a stream; short reads with the keys of song structures *)
From Coq Require Import NArith ZArith List Bool Lia.
From Coq Require Import ZifyBool ZifyNat ZifyN.
From Verif Require Import Base BaseFacts Schema Xor XorFacts Anlz AnlzFacts AnlzCodec AnlzSong.
Import ListNotations.
Open Scope N_scope.
Ltac Zify.zify_post_hook ::= Z.div_mod_to_equations.

(** ** Programs that are parsers *)
Fixpoint prog_bind {A B} (p : prog A) (f : A -> prog B) : prog B :=
  match p with
  | PRet a => f a
  | PFail e => PFail e
  | PRead n k => PRead n (fun bs => prog_bind (k bs) f)
  | PWrite bs k => PWrite bs (prog_bind k f)
  | PSeek s k => PSeek s (fun p => prog_bind (k p) f)
  end.
(** The program does on a plain stream what the parser does, and never writes. *)
Definition realizes {A} (p : parser A) (g : prog A) : Prop :=
  forall buf pos, gapless g (buf, pos) /\
    run_plain g (buf, pos) = match p buf pos with Ok (a, q) => Ok (a, (buf, q)) | Err e => Err e | Panic => Panic end.
Lemma run_bind {A B} (f : A -> prog B) : forall (g : prog A) s,
  run_plain (prog_bind g f) s = do! r <- run_plain g s; run_plain (f (fst r)) (snd r).
Proof.
  induction g as [a|e|n k IH|bs k IH|t k IH]; intros [buf pos]; cbn [prog_bind run_plain res_bind]; try easy.
  - destruct (rd_bytes n buf pos) as [[r q]| |]; cbn [res_bind]; easy.
  - destruct (seek_target buf pos t) as [r| |]; cbn [res_bind]; easy.
Qed.
Lemma gapless_bind {A B} (f : A -> prog B) : forall (g : prog A) s, gapless g s ->
  (forall r, run_plain g s = Ok r -> gapless (f (fst r)) (snd r)) -> gapless (prog_bind g f) s.
Proof.
  induction g as [a|e|n k IH|bs k IH|t k IH]; intros [buf pos] HG HF; cbn [prog_bind run_plain res_bind gapless] in *.
  - exact (HF (a, (buf, pos)) eq_refl).
  - easy.
  - destruct (rd_bytes n buf pos) as [[r q]| |]; cbn [res_bind fst snd] in *; auto.
  - split; [easy|]. apply IH; [easy|]. exact HF.
  - destruct (seek_target buf pos t) as [r| |]; cbn [res_bind] in *; auto.
Qed.
Lemma realizes_ret {A} (a : A) : realizes (ret a) (PRet a).
Proof. easy. Qed.
Lemma realizes_fail {A} e : realizes (@fail A e) (PFail e).
Proof. easy. Qed.
Lemma realizes_bind {A B} (p : parser A) (f : A -> parser B) g h :
  realizes p g -> (forall a, realizes (f a) (h a)) -> realizes (bind p f) (prog_bind g h).
Proof.
  intros HP HF buf pos. destruct (HP buf pos) as [H1 H2]. split.
  - apply gapless_bind; [easy|]. intros [a s] E. rewrite H2 in E. destruct (p buf pos) as [[x q]| |]; [|easy|easy]. injection E as -> <-. apply HF.
  - rewrite run_bind, H2. unfold bind. destruct (p buf pos) as [[x q]| |]; cbn [res_bind fst snd]; [apply HF|easy|easy].
Qed.
Definition prog_bytes (n : N) : prog (list N) := PRead n PRet.
Lemma realizes_bytes n : realizes (rd_bytes n) (prog_bytes n).
Proof. intros buf pos. cbn. destruct (rd_bytes n buf pos) as [[r q]| |] eqn:E; cbn; split; easy. Qed.
(** The readers of integers, enums and lists. *)
Definition prog_int (e : endian) (n : nat) : prog N :=
  prog_bind (prog_bytes (N.of_nat n)) (fun bs => PRet (match e with LE => le_dec bs | BE => be_dec bs end)).
Lemma realizes_int e n : realizes (rd_int e n) (prog_int e n).
Proof. destruct e; apply realizes_bind; (apply realizes_bytes || intro; apply realizes_ret). Qed.
Definition prog_guard (c : bool) (e : err) : prog unit := if c then PRet tt else PFail e.
Lemma realizes_guard c e : realizes (guard c e) (prog_guard c e).
Proof. destruct c; easy. Qed.
Definition prog_field (f : field) : prog fval :=
  match f with
  | FInt e n => prog_bind (prog_int e n) (fun x => PRet (VInt x))
  | FMagic e n m => prog_bind (prog_int e n) (fun x => prog_bind (prog_guard (x =? m) EBadMagic) (fun _ => PRet VUnit))
  | FEnum e n codes => prog_bind (prog_int e n) (fun x => prog_bind (prog_guard (mem x codes) ENoVariant) (fun _ => PRet (VNamed x)))
  | FEnumF e n codes => prog_bind (prog_int e n) (fun x => PRet (if mem x codes then VNamed x else VOther x))
  | FBytes n => prog_bind (prog_bytes n) (fun bs => PRet (VBytes bs))
  | FStr => PFail EIo
  end.
Lemma realizes_field f : realizes (rd_field (fail EIo) f) (prog_field f).
Proof.
  destruct f; cbn [rd_field prog_field]; try (apply realizes_bind; [apply realizes_int || apply realizes_bytes|intro]; try apply realizes_ret).
  1,2: apply realizes_bind; [apply realizes_guard|intro; apply realizes_ret].
  easy.
Qed.
Fixpoint prog_fields (fs : list field) : prog (list fval) :=
  match fs with
  | [] => PRet []
  | f :: fs' => prog_bind (prog_field f) (fun v => prog_bind (prog_fields fs') (fun vs => PRet (v :: vs)))
  end.
Lemma realizes_plain fs : realizes (rd_plain fs) (prog_fields fs).
Proof.
  unfold rd_plain. induction fs as [|f fs IH]; cbn [rd_fields prog_fields]; [apply realizes_ret|].
  apply realizes_bind; [apply realizes_field|intro]. apply realizes_bind; [easy|intro; apply realizes_ret].
Qed.
Fixpoint prog_count {A} (n : nat) (p : prog A) : prog (list A) :=
  match n with O => PRet [] | S n' => prog_bind p (fun x => prog_bind (prog_count n' p) (fun xs => PRet (x :: xs))) end.
Lemma realizes_count {A} (p : parser A) g n : realizes p g -> realizes (rd_count n p) (prog_count n g).
Proof.
  intro H. induction n as [|n IH]; cbn [rd_count prog_count]; [apply realizes_ret|]. apply realizes_bind; [easy|intro]. apply realizes_bind; [easy|intro; apply realizes_ret].
Qed.
(** src/anlz.rs:1051-1069 as a program. *)
Definition prog_song_data (n : N) : prog song_data :=
  prog_bind (prog_fields song_fields) (fun vs => prog_bind (prog_count (N.to_nat n) (prog_fields phrase_fields))
    (fun ps => PRet {| sd_values := vs; sd_phrases := ps |})).
Lemma realizes_song_data n : realizes (rd_song_data n) (prog_song_data n).
Proof.
  apply realizes_bind; [apply realizes_plain|intro]. apply realizes_bind; [apply realizes_count, realizes_plain|intro; apply realizes_ret].
Qed.
Lemma song_through_stream n key buf pos : key <> [] ->
  match rd_song_data n (xor_view key pos buf) pos with
  | Ok (d, q) => exists x, run_xor (prog_song_data n) (xs_with_key buf pos key) = Ok (d, x) /\ xs_pos x = q /\ xs_buf x = buf
  | Err e => run_xor (prog_song_data n) (xs_with_key buf pos key) = Err e
  | Panic => False
  end.
Proof.
  intro HK. destruct (realizes_song_data n (xor_view key pos buf) pos) as [HG HR].
  assert (xs_buf (xs_with_key buf pos key) = buf /\ xs_pos (xs_with_key buf pos key) = pos) as [EB EP] by now destruct key.
  pose proof (run_view key pos (prog_song_data n) (xs_with_key buf pos key) (with_key_aligned buf pos key HK)) as HV. unfold view in HV at 1 2. rewrite EB, EP in HV.
  specialize (HV HG). rewrite HR in HV. destruct (rd_song_data n (xor_view key pos buf) pos) as [[d q]| |]; [|easy|easy].
  destruct HV as (x & H1 & H2 & H3). exists x. split; [easy|]. unfold view in H2. injection H2 as H2 ->. split; [easy|].
  apply (f_equal (xor_cycle key (- Z.of_N pos))) in H2. unfold xor_view in H2. now rewrite !xor_cycle_invol in H2.
Qed.
(** Writing in any pieces, at the end of the stream or over old contents. *)
Fixpoint write_pieces (pieces : list (list N)) : prog unit := match pieces with [] => PRet tt | b :: r => PWrite b (write_pieces r) end.
Lemma pieces_through_stream key buf pos : key <> [] -> pos <= len buf -> forall pieces,
  exists x, run_xor (write_pieces pieces) (xs_with_key buf pos key) = Ok (tt, x) /\ xs_pos x = pos + len (concat pieces) /\
    xs_buf x = write_at buf pos (xor_cycle key 0 (concat pieces)).
Proof.
  intros HK HL pieces.
  assert (forall pieces x bf, aligned key pos x -> xs_pos x <= len (xs_buf x) -> pos <= xs_pos x -> bf = xs_buf x ->
    exists x', run_xor (write_pieces pieces) x = Ok (tt, x') /\ xs_pos x' = xs_pos x + len (concat pieces) /\
      xs_buf x' = write_at bf (xs_pos x) (xor_cycle key (Z.of_N (xs_pos x) - Z.of_N pos) (concat pieces))) as H.
  { clear pieces. induction pieces as [|c r IH]; intros x bf HA HP HS ->; cbn [write_pieces run_xor concat].
    - exists x. split; [easy|]. split; [rewrite (@len_nil N); lia|]. reflexivity.
    - destruct (write_full_aligned key pos x c HA) as (H1 & H2 & H3).
      destruct (IH (xs_write_full x c) (xs_buf (xs_write_full x c)) H1) as (x' & E & P & B); [| |reflexivity|].
      + rewrite H2, H3. destruct c as [|z c]; [rewrite (@len_nil N), N.add_0_r; exact HP|]. rewrite len_write_at by (cbn; easy). rewrite len_xor_cycle, len_cons. lia.
      + lia.
      + exists x'. split; [easy|]. rewrite P, H2, len_app. split; [lia|]. rewrite B, H2, H3, xor_cycle_app.
        rewrite write_at_app, len_xor_cycle. do 2 f_equal. lia. }
  destruct (H pieces (xs_with_key buf pos key) buf (with_key_aligned buf pos key HK)) as (x & E & P & B); try (destruct key; [easy|cbn; lia || easy]).
  assert (xs_pos (xs_with_key buf pos key) = pos) as EP by now destruct key. rewrite EP in *. exists x. rewrite Z.sub_diag in B. easy.
Qed.
(** An empty key leaves all as it is. *)
Lemma key0_id : forall bs i, xor_cycle [0] i bs = bs.
Proof.
  induction bs as [|x bs IH]; intro i; [easy|]. cbn [xor_cycle]. rewrite IH. f_equal. unfold key_at. change (Z.of_N (len [0])) with 1%Z. rewrite Z.mod_1_r. apply N.lxor_0_r.
Qed.

(** ** Short reads *)
(** The pieces [chunks] are decoded [w] key bytes too late. *)
Fixpoint in_step (key : list N) (i w : Z) (chunks : list (list N)) : Prop :=
  match chunks with
  | [] => True
  | c :: r => (forall j, (0 <= j < Z.of_N (len c))%Z -> key_at key (i + j) = key_at key (i + w + j)) /\
              in_step key (i + Z.of_N (len c)) (w + Z.of_N (len (concat r))) r
  end.
Lemma shift_iff key i w c : xor_cycle key (i + w) c = xor_cycle key i c <->
  forall j, (0 <= j < Z.of_N (len c))%Z -> key_at key (i + j) = key_at key (i + w + j).
Proof.
  split; [|apply xor_cycle_shift]. intros E j Hj.
  assert (nth (Z.to_nat j) (xor_cycle key (i + w) c) 0 = nth (Z.to_nat j) (xor_cycle key i c) 0) as EN by now rewrite E.
  rewrite !xor_cycle_nth in EN by (unfold len in Hj; lia). rewrite !Z2Nat.id in EN by lia.
  apply (f_equal (N.lxor (nth (Z.to_nat j) c 0))) in EN. rewrite <- !N.lxor_assoc, N.lxor_nilpotent, !N.lxor_0_l in EN. now symmetry.
Qed.
Lemma app_inj_len {A} (a c b d : list A) : length a = length b -> a ++ c = b ++ d -> a = b /\ c = d.
Proof.
  revert b. induction a as [|x a IH]; intros [|y b] HL HE; try easy. cbn in *. injection HE as <- HE. apply IH in HE as [-> ->]; [easy|lia].
Qed.
Lemma split_out_iff key : forall chunks i w, split_out key (i + w) chunks = xor_cycle key i (concat chunks) <-> in_step key i w chunks.
Proof.
  induction chunks as [|c r IH]; intros i w; [easy|]. cbn [split_out concat in_step]. rewrite xor_cycle_app.
  replace (i + w + Z.of_N (len c) + Z.of_N (len (concat r)))%Z with (i + Z.of_N (len c) + (w + Z.of_N (len (concat r))))%Z by lia.
  rewrite <- IH, <- shift_iff. split.
  - intro E. apply app_inj_len in E; [easy|]. now rewrite !length_xor_cycle.
  - intros [-> ->]. easy.
Qed.
(** The keys of song structures have no period shorter than their length: 0xFA occurs once. *)
Lemma song_key_once n k : (k < 19)%nat -> nth k (song_key n) 0 = nth 3 (song_key n) 0 -> k = 3%nat.
Proof.
  intros HK. do 19 (destruct k as [|k]; [cbn [song_key map nth key_data]; intro HE; try reflexivity; exfalso; revert HE; clear; intro; lia|]). lia.
Qed.
Lemma song_key_shift n i w c : (w mod 19 <> 0)%Z -> 19 <= len c -> xor_cycle (song_key n) (i + w) c <> xor_cycle (song_key n) i c.
Proof.
  intros HW HL HE. rewrite shift_iff in HE. specialize (HE ((3 - i) mod 19)%Z). unfold key_at in HE. change (Z.of_N (len (song_key n))) with 19%Z in HE.
  assert (0 <= (3 - i) mod 19 < 19)%Z as HR by (apply Z.mod_pos_bound; lia).
  assert ((i + (3 - i) mod 19) mod 19 = 3)%Z as E3 by (rewrite Z.add_mod_idemp_r by easy; now replace (i + (3 - i))%Z with 3%Z by lia).
  assert (Z.to_nat ((i + w + (3 - i) mod 19) mod 19) = 3%nat) as E4.
  { apply (song_key_once n); [pose proof (Z.mod_pos_bound (i + w + (3 - i) mod 19) 19); lia|]. rewrite E3 in HE. symmetry. apply HE. lia. }
  clear HE. pose proof (Z.mod_pos_bound (i + w + (3 - i) mod 19) 19) as HB.
  replace (i + w + (3 - i) mod 19)%Z with (i + (3 - i) mod 19 + w)%Z in * by lia. rewrite <- Z.add_mod_idemp_l in E4, HB by easy. rewrite E3 in E4, HB. clear E3 HR HL. lia.
Qed.
