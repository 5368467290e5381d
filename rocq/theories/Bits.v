(** Writing and reading uncompressed bits.

    The encoder writes every header through the `bitstream_io::BitWriter`
    (big endian) of an external crate.  What is assumed of that crate is the
    content of the definitions below: [write(n, v)] appends the [n] low bits of
    [v], most significant first, and refuses (returning an error and writing
    nothing) a value that needs more than [n] bits. *)
From Verif Require Import Base.

(** ** Writer

    Outcome of a writing function: the bits it appended and whether it
    returned [Ok].  [None] is a panic. *)
Definition wres : Type := option (list bool * bool).

Definition w_ret : wres := Some ([], true).
Definition w_fail : wres := Some ([], false).

(** `a?; b` *)
Definition w_seq (a b : wres) : wres :=
  match a with
  | None => None
  | Some (l, false) => Some (l, false)
  | Some (l, true) =>
      match b with
      | None => None
      | Some (m, ok) => Some (l ++ m, ok)
      end
  end.
Infix ">>>" := w_seq (at level 61, right associativity).

(** `a; b` where the `Result` of `a` is dropped *)
Definition w_ign (a : wres) : wres :=
  match a with
  | None => None
  | Some (l, _) => Some (l, true)
  end.

Definition w_bit (b : bool) : wres := Some ([b], true).

(** `write_var(n, v)` / `write::<n, _>(v)` for an unsigned value *)
Definition w_bits (n v : Z) : wres :=
  if (0 <=? v) && (v <? 2 ^ n) then Some (bits_of (Z.to_nat n) v, true) else w_fail.

(** an `assert!` *)
Definition w_assert (b : bool) : wres := if b then w_ret else None.

(** `if b { a }` *)
Definition w_if (b : bool) (a : wres) : wres := if b then a else w_ret.

Definition w_list {A} (f : A -> wres) (l : list A) : wres :=
  fold_right (fun x r => f x >>> r) w_ret l.

(** ** Reader

    A parser consumes a prefix of the bits; [None] is a bitstream that is too
    short or not allowed. *)
Definition parser (A : Type) : Type := list bool -> option (A * list bool).

Definition p_ret {A} (x : A) : parser A := fun l => Some (x, l).
Definition p_fail {A} : parser A := fun _ => None.
Definition p_bind {A B} (p : parser A) (f : A -> parser B) : parser B :=
  fun l => match p l with None => None | Some (a, l') => f a l' end.
Notation "x <- p ;; q" := (p_bind p (fun x => q)) (at level 62, p at next level, right associativity).

(** AV1 specification 4.10.2, f(1) and f(n) *)
Definition p_flag : parser bool := fun l => match l with [] => None | b :: r => Some (b, r) end.
Fixpoint p_f_acc (n : nat) (x : Z) : parser Z :=
  match n with
  | O => p_ret x
  | S n => b <- p_flag ;; p_f_acc n (2 * x + b2z b)
  end.
Definition p_f (n : Z) : parser Z := p_f_acc (Z.to_nat n) 0.

Fixpoint p_repeat {A} (n : nat) (p : parser A) : parser (list A) :=
  match n with
  | O => p_ret []
  | S n => x <- p ;; r <- p_repeat n p ;; p_ret (x :: r)
  end.

(** AV1 specification 4.10.7, ns(n): w = FloorLog2(n) + 1; m = (1 << w) - n;
    v = f(w - 1); if v < m return v; extra_bit = f(1);
    return (v << 1) - m + extra_bit *)
Definition p_ns (n : Z) : parser Z :=
  let w := Z.log2 n + 1 in
  let m := 2 ^ w - n in
  v <- p_f (w - 1) ;;
  if v <? m then p_ret v else
  e <- p_f 1 ;; p_ret (2 * v - m + e).

(** AV1 specification 4.10.6, su(n): value = f(n); signMask = 1 << (n - 1);
    if (value & signMask) value = value - 2 * signMask *)
Definition p_su (n : Z) : parser Z :=
  v <- p_f n ;;
  p_ret (if v <? 2 ^ (n - 1) then v else v - 2 ^ n).

(** AV1 specification 4.10.3, uvlc() *)
Fixpoint p_uvlc_loop (fuel : nat) (lz : Z) : parser Z :=
  match fuel with
  | O => p_fail
  | S fuel =>
      done <- p_flag ;;
      if done then
        if 32 <=? lz then p_ret (2 ^ 32 - 1)
        else v <- p_f lz ;; p_ret (v + 2 ^ lz - 1)
      else p_uvlc_loop fuel (lz + 1)
  end.
Definition p_uvlc : parser Z := fun l => p_uvlc_loop (S (length l)) 0 l.

(** ** Round trips *)

(** [p] reads [x] from [bits], whatever follows. *)
Definition parses {A} (p : parser A) (bits : list bool) (x : A) : Prop :=
  forall rest, p (bits ++ rest) = Some (x, rest).

(** [w] succeeds and what it wrote is read back by [p] as [x]. *)
Definition round_trips {A} (w : wres) (p : parser A) (x : A) : Prop :=
  exists bits, w = Some (bits, true) /\ parses p bits x.

Lemma parses_ret {A} (x : A) : parses (p_ret x) [] x.
Proof. intros rest. reflexivity. Qed.
Lemma parses_bind {A B} (p : parser A) (f : A -> parser B) b1 b2 x y :
  parses p b1 x -> parses (f x) b2 y -> parses (p_bind p f) (b1 ++ b2) y.
Proof. intros H1 H2 rest. unfold p_bind. rewrite <- app_assoc, H1. apply H2. Qed.

Lemma rt_ret {A} (x : A) : round_trips w_ret (p_ret x) x.
Proof. exists []. split; [reflexivity|apply parses_ret]. Qed.
Lemma rt_bind {A B} w1 w2 (p : parser A) (f : A -> parser B) x y :
  round_trips w1 p x -> round_trips w2 (f x) y -> round_trips (w1 >>> w2) (p_bind p f) y.
Proof.
  intros (b1 & -> & H1) (b2 & -> & H2). exists (b1 ++ b2). split; [reflexivity|].
  exact (parses_bind _ _ _ _ _ _ H1 H2).
Qed.
Lemma rt_last {A B} w1 (p : parser A) (f : A -> parser B) x y :
  round_trips w1 p x -> f x = p_ret y -> round_trips w1 (p_bind p f) y.
Proof.
  intros (b1 & -> & H1) E. exists b1. split; [reflexivity|]. intros rest. unfold p_bind.
  rewrite H1, E. reflexivity.
Qed.
Lemma rt_skip {A} w1 w2 (p : parser A) x :
  w1 = w_ret -> round_trips w2 p x -> round_trips (w1 >>> w2) p x.
Proof. intros -> (b & -> & H). exists b. split; [reflexivity|exact H]. Qed.
Lemma rt_skip_end {A} w1 w2 (p : parser A) x :
  w2 = w_ret -> round_trips w1 p x -> round_trips (w1 >>> w2) p x.
Proof. intros -> (b & -> & H). exists b. split; [cbn; now rewrite app_nil_r|exact H]. Qed.
Lemma rt_ign {A} w (p : parser A) x : round_trips w p x -> round_trips (w_ign w) p x.
Proof. intros (b & -> & H). exists b. split; [reflexivity|exact H]. Qed.
Lemma w_seq_assoc a b c : (a >>> b) >>> c = a >>> (b >>> c).
Proof.
  destruct a as [[la [|]]|]; cbn; try reflexivity.
  destruct b as [[lb [|]]|]; cbn; try reflexivity.
  destruct c as [[lc ok]|]; cbn; try reflexivity. now rewrite app_assoc.
Qed.
Lemma w_seq_ret_r a : a >>> w_ret = a.
Proof. destruct a as [[la [|]]|]; cbn; try reflexivity. now rewrite app_nil_r. Qed.
Lemma w_seq_ret_l a : w_ret >>> a = a.
Proof. destruct a as [[la ok]|]; reflexivity. Qed.
Lemma w_assert_true b : b = true -> w_assert b = w_ret.
Proof. intros ->. reflexivity. Qed.

Lemma rt_bit b : round_trips (w_bit b) p_flag b.
Proof. exists [b]. split; [reflexivity|]. intros rest. reflexivity. Qed.
Lemma p_f_acc_bits l : forall x rest, p_f_acc (length l) x (l ++ rest) = Some (x * 2 ^ zlen l + bits_val l, rest).
Proof.
  induction l as [|b l IH]; intros x rest.
  - cbn [length p_f_acc app]. unfold p_ret. rewrite bits_val_nil, zlen_nil. f_equal. f_equal. lia.
  - cbn [length p_f_acc app]. unfold p_bind. cbn [p_flag]. rewrite IH. f_equal. f_equal.
    rewrite bits_val_cons, zlen_cons. pose proof (zlen_nonneg _ l).
    rewrite Z.pow_add_r by lia. change (2 ^ 1) with 2. lia.
Qed.
Lemma rt_bits n v : 0 <= n -> 0 <= v < 2 ^ n -> round_trips (w_bits n v) (p_f n) v.
Proof.
  intros Hn Hv. exists (bits_of (Z.to_nat n) v). split.
  - unfold w_bits. destruct (Z.leb_spec 0 v); [|lia]. destruct (Z.ltb_spec v (2 ^ n)); [reflexivity|lia].
  - intros rest. unfold p_f.
    rewrite <- (bits_of_length (Z.to_nat n) v) at 1. rewrite p_f_acc_bits, bits_val_bits_of_small by
      (rewrite Z2Nat.id by lia; exact Hv). reflexivity.
Qed.
Lemma rt_flag_f1 b : round_trips (w_bit b) (p_f 1) (b2z b).
Proof. exists [b]. split; [reflexivity|]. intros rest. destruct b; reflexivity. Qed.

Lemma rt_list {A B} (f : A -> wres) (p : parser B) (g : A -> B) l :
  (forall x, In x l -> round_trips (f x) p (g x)) ->
  round_trips (w_list f l) (p_repeat (length l) p) (map g l).
Proof.
  induction l as [|x l IH]; intros H.
  - apply rt_ret.
  - cbn [w_list fold_right length p_repeat map]. eapply rt_bind.
    + apply H. left. reflexivity.
    + eapply rt_last; [apply IH; intros; apply H; now right|reflexivity].
Qed.

(** A parser that reads exactly what was written never reads anything else. *)
Lemma round_trips_inj {A} w (p : parser A) x y : round_trips w p x -> round_trips w p y -> x = y.
Proof.
  intros (b & E & H) (b' & E' & H'). rewrite E in E'. injection E' as <-.
  specialize (H []). specialize (H' []). rewrite H in H'. congruence.
Qed.
