(** * Helpers: alignment, reading and writing at offsets, functions on arrays *)
From Coq Require Import NArith ZArith List Bool Lia.
From Coq Require Import ZifyBool ZifyNat ZifyN.
From Verif Require Import Base BaseFacts Segs Page.
Import ListNotations.
Open Scope N_scope.

(** [u64::is_multiple_of] (std): no panic for zero. *)
Definition is_multiple_of (offset alignment : N) : bool := if alignment =? 0 then offset =? 0 else offset mod alignment =? 0.
(** [align_by], src/util.rs:195-211.  [%] by zero panics. *)
Definition align_by (b : build) (alignment offset : N) : res N :=
  if is_multiple_of offset alignment then Ok offset
  else if alignment =? 0 then Panic
  else do! d <- wsub b 64 alignment (offset mod alignment); wadd b 64 offset d.

(** [std::io::SeekFrom], and the position that [seek] moves to; a position before the start is an error. *)
Inductive seekfrom : Type := SStart (p : N) | SCurrent (d : Z) | SEnd (d : Z).
Definition signed (z : Z) : option N := if (z <? 0)%Z then None else Some (Z.to_N z).
Definition target (s : seekfrom) (size pos : N) : option N :=
  match s with SStart p => Some p | SCurrent d => signed (Z.of_N pos + d) | SEnd d => signed (Z.of_N size + d) end.
Definition seek (s : seekfrom) : parser unit :=
  fun buf pos => match target s (len buf) pos with Some p => Ok (tt, p) | None => Err EIo end.
Definition w_seek (s : seekfrom) : writer :=
  fun '(buf, pos) => match target s (len buf) pos with Some p => Ok (buf, p) | None => Err EIo end.

Section at_offsets.
  Context {O V : Type} (into : O -> seekfrom).
  (** [parse_at_offsets], src/util.rs:146-169; [collect] stops at the first error.  The pairs are in the order of the iterator; collecting them
      into a [BTreeMap] is [to_map]. *)
  Fixpoint parse_loop (p : parser V) (base : N) (os : list O) : parser (list (O * V)) :=
    match os with
    | [] => ret []
    | o :: os' =>
      let* _ <- seek (into o);
      let* v <- p;
      let* _ <- seek (SStart base);
      let* rest <- parse_loop p base os';
      ret ((o, v) :: rest)
    end.
  Definition parse_at_offsets (p : parser V) (os : list O) : parser (list (O * V)) := let* base <- tell; parse_loop p base os.
  (** [write_at_offsets], src/util.rs:171-193 *)
  Fixpoint write_loop (w : V -> writer) (base : N) (l : list (O * V)) : writer :=
    match l with
    | [] => wr_nil
    | (o, v) :: r => wr_seq (w_seek (into o)) (wr_seq (w v) (wr_seq (w_seek (SStart base)) (write_loop w base r)))
    end.
  Definition write_at_offsets (w : V -> writer) (l : list (O * V)) : writer := fun s => write_loop w (snd s) l s.
End at_offsets.

(** [FromIterator] for [BTreeMap]: later pairs replace earlier ones. *)
Definition to_map {A} (l : list (N * A)) : list (N * A) := fold_left (fun m x => map_insert (fst x) (snd x) m) l [].

(** [try_map_polyfill], src/util.rs:219-229.  [f] is an [FnMut] and may change a state [S]; [array::map] calls it for all the items in order.
    [None] is a panic in [unwrap] or [unreachable!]. *)
Section arrays.
  Context {T U E S : Type}.
  Fixpoint array_map (f : T -> S -> (U + E) * S) (l : list T) (s : S) : list (U + E) * S :=
    match l with
    | [] => ([], s)
    | x :: r => let '(y, s1) := f x s in let '(ys, s2) := array_map f r s1 in (y :: ys, s2)
    end.
  Definition is_err (r : U + E) : bool := match r with inl _ => false | inr _ => true end.
  Fixpoint find_err (l : list (U + E)) : option E := match l with [] => None | inl _ :: r => find_err r | inr e :: _ => Some e end.
  Fixpoint unpack (l : list (U + E)) : option (list U) :=
    match l with
    | [] => Some []
    | inl v :: r => match unpack r with Some vs => Some (v :: vs) | None => None end
    | inr _ :: _ => None
    end.
  Definition try_map (f : T -> S -> (U + E) * S) (l : list T) (s : S) : option (list U + E) * S :=
    let '(results, s') := array_map f l s in
    (if existsb is_err results then option_map inr (find_err results) else option_map inl (unpack results), s').
  (** [zip_polyfill], src/util.rs:231-244: item [i] is the pair of the items at [i]; the arrays have the same length. *)
  Definition zip (l : list T) (l' : list U) : option (list (T * U)) :=
    let pairs := map (fun i => match nth_error l i, nth_error l' i with Some a, Some b => Some (a, b) | _, _ => None end) (seq 0 (length l)) in
    fold_right (fun x r => match x, r with Some p, Some ps => Some (p :: ps) | _, _ => None end) (Some []) pairs.
End arrays.
