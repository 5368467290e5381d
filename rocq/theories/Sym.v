(** Coded symbols, as seen between the syntax writers and the range coder.

    A writer of block syntax produces a list of events, one per call of
    `symbol_with_update!` / `symbol` (a value in the alphabet of a table) or of
    `bit` / `literal` (raw bits).  A reader, written from the AV1 specification,
    asks for the next value of the table that the specification selects; it
    fails if the stream has something else there, since a decoder using
    another table would be out of step.  That the range coder itself delivers
    the values is C01 and C02. *)
From Verif Require Export Base.
From Coq Require String.
Export String.StringSyntax.
Open Scope list_scope.
Open Scope Z_scope.

Inductive ev :=
  (** table name, index into the array of tables, alphabet size, value *)
  | ESym (t : String.string) (ix : list Z) (n v : Z)
  (** raw bits, most significant first: number of bits, value *)
  | ELit (n v : Z).

Fixpoint zl_eqb (a b : list Z) : bool :=
  match a, b with
  | [], [] => true
  | x :: a, y :: b => (x =? y) && zl_eqb a b
  | _, _ => false
  end.

Definition reader (A : Type) := list ev -> option (A * list ev).
Definition ret {A} (a : A) : reader A := fun l => Some (a, l).
Definition fail {A} : reader A := fun _ => None.
Definition bind {A B} (r : reader A) (k : A -> reader B) : reader B :=
  fun l => match r l with Some (a, l) => k a l | None => None end.
Notation "'rd' x <- e ; k" := (bind e (fun x => k))
  (at level 200, x name, e at level 100, k at level 200).
Definition rsym (t : String.string) (ix : list Z) (n : Z) : reader Z := fun l =>
  match l with
  | ESym t' ix' n' v :: l =>
      if (String.eqb t t' && zl_eqb ix ix' && (n =? n') && (0 <=? v) && (v <? n))%bool
      then Some (v, l) else None
  | _ => None
  end.
Definition rlit (n : Z) : reader Z := fun l =>
  match l with
  | ELit n' v :: l =>
      if ((n =? n') && (0 <=? v) && (v <? 2 ^ n))%bool then Some (v, l) else None
  | _ => None
  end.

(** A writer: [None] is a panic (failed assert, index out of range). *)
Definition writer := option (list ev).
Definition wapp (a b : writer) : writer :=
  match a, b with Some a, Some b => Some (a ++ b) | _, _ => None end.
Infix "+++" := wapp (at level 60, right associativity).
Definition wnil : writer := Some [].
Definition wsym (t : String.string) (ix : list Z) (n v : Z) : writer := Some [ESym t ix n v].
Definition wlit (n v : Z) : writer := Some [ELit n v].
Definition wguard (b : bool) (w : writer) : writer := if b then w else None.
Definition wif (b : bool) (w : writer) : writer := if b then w else wnil.

Lemma zl_eqb_refl a : zl_eqb a a = true.
Proof. induction a; cbn; [reflexivity|]. now rewrite Z.eqb_refl. Qed.

Lemma rsym_ok t ix n v l : 0 <= v < n -> rsym t ix n (ESym t ix n v :: l) = Some (v, l).
Proof.
  intros H. unfold rsym. rewrite String.eqb_refl, zl_eqb_refl, Z.eqb_refl.
  replace (0 <=? v) with true by lia. replace (v <? n) with true by lia. reflexivity.
Qed.
Lemma rlit_ok n v l : 0 <= v < 2 ^ n -> rlit n (ELit n v :: l) = Some (v, l).
Proof.
  intros H. unfold rlit. rewrite Z.eqb_refl.
  replace (0 <=? v) with true by lia. replace (v <? 2 ^ n) with true by lia. reflexivity.
Qed.

(** [r] reads back what [w] wrote as [a], whatever follows. *)
Definition reads {A} (r : reader A) (w : writer) (a : A) : Prop :=
  exists l, w = Some l /\ forall rest, r (l ++ rest) = Some (a, rest).

Lemma reads_ret A (a : A) : reads (ret a) wnil a.
Proof. exists []. split; reflexivity. Qed.
Lemma reads_sym t ix n v : 0 <= v < n -> reads (rsym t ix n) (wsym t ix n v) v.
Proof. intros H. exists [ESym t ix n v]. split; [reflexivity|]. intros; now apply rsym_ok. Qed.
Lemma reads_lit n v : 0 <= v < 2 ^ n -> reads (rlit n) (wlit n v) v.
Proof. intros H. exists [ELit n v]. split; [reflexivity|]. intros; now apply rlit_ok. Qed.
Lemma reads_bind A B (r : reader A) (k : A -> reader B) w1 w2 a b :
  reads r w1 a -> reads (k a) w2 b -> reads (bind r k) (w1 +++ w2) b.
Proof.
  intros [l1 [E1 H1]] [l2 [E2 H2]]. exists (l1 ++ l2). rewrite E1, E2. split; [reflexivity|].
  intros rest. unfold bind. rewrite <- app_assoc, H1. apply H2.
Qed.
(** the last element of a sequence *)
Lemma reads_last A B (r : reader A) (f : A -> B) w a :
  reads r w a -> reads (rd x <- r; ret (f x)) w (f a).
Proof.
  intros [l [E H]]. exists l. split; [exact E|]. intros rest. unfold bind. rewrite H. reflexivity.
Qed.
Lemma reads_val A (r : reader A) w a b : reads r w a -> a = b -> reads r w b.
Proof. intros H <-. exact H. Qed.
(** an absent element *)
Lemma reads_nil_bind A B (r : reader A) (k : A -> reader B) w a b :
  reads r wnil a -> reads (k a) w b -> reads (bind r k) w b.
Proof.
  intros [l1 [E1 H1]] [l2 [E2 H2]]. exists l2. split; [exact E2|].
  injection E1 as <-. intros rest. unfold bind. specialize (H1 (l2 ++ rest)). cbn [app] in H1.
  rewrite H1. apply H2.
Qed.
