(** Shared vocabulary: wrapping integer casts, bit strings (most significant
    bit first), byte strings (big endian) and the facts about them that the
    other files use.  Nothing here models rav1e code except the Rust integer
    casts [as u8/u16/u32/u64]. *)
From Coq Require Export ZArith List Lia Bool.
From Coq Require Export ZifyBool ZifyNat ZifyN.
Export ListNotations.
Global Open Scope Z_scope.

(** [lia] with Euclidean division expanded. *)
Ltac dlia := Z.div_mod_to_equations; lia.

(** Rust `as uN` casts / wrapping of fixed width registers. *)
Definition u8 (x : Z) : Z := x mod 2 ^ 8.
Definition u16 (x : Z) : Z := x mod 2 ^ 16.
Definition u32 (x : Z) : Z := x mod 2 ^ 32.
Definition u64 (x : Z) : Z := x mod 2 ^ 64.

Lemma u8_id x : 0 <= x < 2 ^ 8 -> u8 x = x.
Proof. intros; unfold u8; now rewrite Z.mod_small. Qed.
Lemma u16_id x : 0 <= x < 2 ^ 16 -> u16 x = x.
Proof. intros; unfold u16; now rewrite Z.mod_small. Qed.
Lemma u32_id x : 0 <= x < 2 ^ 32 -> u32 x = x.
Proof. intros; unfold u32; now rewrite Z.mod_small. Qed.
Lemma u64_id x : 0 <= x < 2 ^ 64 -> u64 x = x.
Proof. intros; unfold u64; now rewrite Z.mod_small. Qed.

(** Length of a list as an integer. *)
Definition zlen {A} (l : list A) : Z := Z.of_nat (length l).

Lemma zlen_nil A : zlen (@nil A) = 0. Proof. reflexivity. Qed.
Lemma zlen_cons A (x : A) l : zlen (x :: l) = zlen l + 1.
Proof. unfold zlen; cbn [length]; lia. Qed.
Lemma zlen_app A (l1 l2 : list A) : zlen (l1 ++ l2) = zlen l1 + zlen l2.
Proof. unfold zlen; rewrite app_length; lia. Qed.
Lemma zlen_nonneg A (l : list A) : 0 <= zlen l.
Proof. unfold zlen; lia. Qed.
Lemma zlen_map A B (f : A -> B) l : zlen (map f l) = zlen l.
Proof. unfold zlen; now rewrite map_length. Qed.
Lemma zlen_repeat A (x : A) n : zlen (repeat x n) = Z.of_nat n.
Proof. unfold zlen; now rewrite repeat_length. Qed.

(** ** Digit strings in base [b], most significant digit first. *)
Definition digits_val (b : Z) (l : list Z) : Z :=
  fold_left (fun a x => b * a + x) l 0.

Lemma digits_fold_acc b l a :
  fold_left (fun a x => b * a + x) l a = a * b ^ zlen l + digits_val b l.
Proof.
  unfold digits_val. revert a; induction l as [|x l IH]; intros a; cbn [fold_left].
  - rewrite zlen_nil; lia.
  - rewrite IH. rewrite (IH (b * 0 + x)).
    rewrite zlen_cons, Z.pow_add_r by (pose proof (zlen_nonneg _ l); lia).
    lia.
Qed.

Lemma digits_val_nil b : digits_val b [] = 0. Proof. reflexivity. Qed.
Lemma digits_val_cons b x l : digits_val b (x :: l) = x * b ^ zlen l + digits_val b l.
Proof.
  unfold digits_val at 1; cbn [fold_left]. rewrite digits_fold_acc. f_equal. f_equal. lia.
Qed.
Lemma digits_val_app b l1 l2 :
  digits_val b (l1 ++ l2) = digits_val b l1 * b ^ zlen l2 + digits_val b l2.
Proof.
  unfold digits_val at 1. rewrite fold_left_app. rewrite digits_fold_acc. reflexivity.
Qed.
Lemma digits_val_snoc b l x : digits_val b (l ++ [x]) = digits_val b l * b + x.
Proof.
  rewrite digits_val_app, zlen_cons, zlen_nil.
  unfold digits_val at 2; cbn [fold_left]. rewrite Z.add_0_l, Z.pow_1_r. lia.
Qed.
Lemma digits_val_nonneg b l :
  0 <= b -> Forall (fun x => 0 <= x) l -> 0 <= digits_val b l.
Proof.
  intros Hb H. induction H as [|x l Hx Hl IH].
  - cbn; lia.
  - rewrite digits_val_cons.
    assert (0 <= b ^ zlen l) by (apply Z.pow_nonneg; lia).
    nia.
Qed.
Lemma digits_val_bound b l :
  0 < b -> Forall (fun x => 0 <= x < b) l -> 0 <= digits_val b l < b ^ zlen l.
Proof.
  intros Hb H. induction H as [|x l Hx Hl IH].
  - cbn; lia.
  - rewrite digits_val_cons, zlen_cons.
    pose proof (zlen_nonneg _ l).
    assert (0 < b ^ zlen l) by (apply Z.pow_pos_nonneg; lia).
    rewrite Z.pow_add_r, Z.pow_1_r by lia. nia.
Qed.

(** ** Bit strings, most significant bit first. *)
Definition b2z (b : bool) : Z := if b then 1 else 0.
Definition bits_val (l : list bool) : Z := digits_val 2 (map b2z l).

Lemma bits_val_nil : bits_val [] = 0. Proof. reflexivity. Qed.
Lemma bits_val_app l1 l2 : bits_val (l1 ++ l2) = bits_val l1 * 2 ^ zlen l2 + bits_val l2.
Proof. unfold bits_val. rewrite map_app, digits_val_app, zlen_map. reflexivity. Qed.
Lemma bits_val_cons x l : bits_val (x :: l) = b2z x * 2 ^ zlen l + bits_val l.
Proof. unfold bits_val. cbn [map]. rewrite digits_val_cons, zlen_map. reflexivity. Qed.
Lemma bits_val_bound l : 0 <= bits_val l < 2 ^ zlen l.
Proof.
  unfold bits_val. rewrite <- (zlen_map _ _ b2z l). apply digits_val_bound; [lia|].
  rewrite Forall_map. apply Forall_forall. intros [] _; cbn; lia.
Qed.
Lemma bits_val_repeat_false n : bits_val (repeat false n) = 0.
Proof.
  induction n as [|n IH]; [reflexivity|]. cbn [repeat]. rewrite bits_val_cons, IH. reflexivity.
Qed.

(** The [n] low bits of [x], most significant first. *)
Fixpoint bits_of (n : nat) (x : Z) : list bool :=
  match n with
  | O => []
  | S k => Z.testbit x (Z.of_nat k) :: bits_of k x
  end.

Lemma bits_of_length n x : length (bits_of n x) = n.
Proof. induction n; cbn; congruence. Qed.
Lemma zlen_bits_of n x : zlen (bits_of n x) = Z.of_nat n.
Proof. unfold zlen; now rewrite bits_of_length. Qed.

Lemma bits_val_bits_of n x : bits_val (bits_of n x) = x mod 2 ^ Z.of_nat n.
Proof.
  induction n as [|n IH].
  - cbn. now rewrite Z.mod_1_r.
  - cbn [bits_of]. rewrite bits_val_cons, zlen_bits_of, IH.
    rewrite Nat2Z.inj_succ, Z.pow_succ_r by lia.
    rewrite (Z.mul_comm 2), Z.rem_mul_r by (try apply Z.pow_nonzero; lia).
    replace ((x / 2 ^ Z.of_nat n) mod 2) with (b2z (Z.testbit x (Z.of_nat n))); [lia|].
    unfold b2z. rewrite Z.testbit_eqb by lia.
    pose proof (Z.mod_pos_bound (x / 2 ^ Z.of_nat n) 2 ltac:(lia)).
    destruct (Z.eqb_spec ((x / 2 ^ Z.of_nat n) mod 2) 1); lia.
Qed.

Lemma bits_val_bits_of_small n x : 0 <= x < 2 ^ Z.of_nat n -> bits_val (bits_of n x) = x.
Proof. intros. rewrite bits_val_bits_of, Z.mod_small; lia. Qed.

(** A byte string as the bit string a bit reader sees. *)
Definition bytes_bits (l : list Z) : list bool := flat_map (bits_of 8) l.

Lemma bytes_bits_length l : length (bytes_bits l) = (8 * length l)%nat.
Proof.
  induction l as [|x l IH]; [reflexivity|].
  unfold bytes_bits in *. cbn [flat_map]. rewrite app_length, IH, bits_of_length. cbn [length]. lia.
Qed.
Lemma zlen_bytes_bits l : zlen (bytes_bits l) = 8 * zlen l.
Proof. unfold zlen. rewrite bytes_bits_length. lia. Qed.
Lemma bytes_bits_app l1 l2 : bytes_bits (l1 ++ l2) = bytes_bits l1 ++ bytes_bits l2.
Proof. unfold bytes_bits. now rewrite flat_map_app. Qed.

Lemma bits_val_bytes_bits l :
  Forall (fun x => 0 <= x < 256) l -> bits_val (bytes_bits l) = digits_val 256 l.
Proof.
  induction 1 as [|x l Hx Hl IH]; [reflexivity|].
  unfold bytes_bits in *. cbn [flat_map]. rewrite bits_val_app, IH, digits_val_cons.
  rewrite bits_val_bits_of_small by (cbn; lia).
  change (flat_map (bits_of 8) l) with (bytes_bits l). rewrite zlen_bytes_bits.
  rewrite Z.pow_mul_r by (pose proof (zlen_nonneg _ l); lia). reflexivity.
Qed.

Definition is_byte (x : Z) : Prop := 0 <= x < 256.
Definition bytes (l : list Z) : Prop := Forall is_byte l.

Lemma skipn_skipn {A} (a b : nat) (l : list A) : skipn a (skipn b l) = skipn (b + a) l.
Proof.
  revert l; induction b as [|b IH]; intros l; [reflexivity|].
  destruct l as [|x l]; [now rewrite !skipn_nil|]. cbn. apply IH.
Qed.

(** Replace the element at position [i]. *)
Fixpoint set_nth {A} (i : nat) (x : A) (l : list A) : list A :=
  match l, i with
  | [], _ => []
  | _ :: r, O => x :: r
  | y :: r, S k => y :: set_nth k x r
  end.

Lemma set_nth_length {A} i (x : A) l : length (set_nth i x l) = length l.
Proof. revert i; induction l as [|y l IH]; intros [|i]; cbn; auto. Qed.
Lemma nth_set_nth_eq {A} i (x : A) l d : (i < length l)%nat -> nth i (set_nth i x l) d = x.
Proof. revert i; induction l as [|y l IH]; intros [|i] H; cbn in *; try lia; auto. apply IH. lia. Qed.
Lemma nth_set_nth_ne {A} i j (x : A) l d : i <> j -> nth j (set_nth i x l) d = nth j l d.
Proof.
  revert i j; induction l as [|y l IH]; intros [|i] [|j] H; cbn; try congruence; auto.
Qed.
Lemma map_set_nth {A B} (f : A -> B) i x l : map f (set_nth i x l) = set_nth i (f x) (map f l).
Proof. revert i; induction l as [|y l IH]; intros [|i]; cbn; congruence. Qed.
Lemma Forall_set_nth {A} (P : A -> Prop) i x l : Forall P l -> P x -> Forall P (set_nth i x l).
Proof.
  intros H Hx; revert i; induction H; intros [|i]; cbn; constructor; auto.
Qed.
