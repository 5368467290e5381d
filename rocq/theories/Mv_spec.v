(** Motion vector syntax of the AV1 specification: read_mv (5.11.32) and
    read_mv_component (5.11.33), with the table selection of section 8.3.2
    (MvCtx is 0: no intra block copy). *)
From Verif Require Import Sym.
Open Scope string_scope.
Open Scope Z_scope.
Open Scope list_scope.

(** d |= mv_bit << i for i = 0 .. n-1 *)
Fixpoint read_mv_bits (comp i : Z) (n : nat) : reader Z :=
  match n with
  | O => ret 0
  | S n => rd b <- rsym "mv_bit" [comp; i] 2; rd d <- read_mv_bits comp (i + 1) n; ret (b * 2 ^ i + d)
  end.

Definition read_mv_component (force_integer_mv allow_high_precision_mv : bool) (comp : Z) : reader Z :=
  rd mv_sign <- rsym "mv_sign" [comp] 2;
  rd mv_class <- rsym "mv_class" [comp] 11;
  rd mag <-
    (if mv_class =? 0 then
       rd mv_class0_bit <- rsym "mv_class0_bit" [comp] 2;
       rd mv_class0_fr <- (if force_integer_mv then ret 3 else rsym "mv_class0_fr" [comp; mv_class0_bit] 4);
       rd mv_class0_hp <- (if allow_high_precision_mv then rsym "mv_class0_hp" [comp] 2 else ret 1);
       ret (mv_class0_bit * 8 + mv_class0_fr * 2 + mv_class0_hp + 1)
     else
       rd d <- read_mv_bits comp 0 (Z.to_nat mv_class);
       rd mv_fr <- (if force_integer_mv then ret 3 else rsym "mv_fr" [comp] 4);
       rd mv_hp <- (if allow_high_precision_mv then rsym "mv_hp" [comp] 2 else ret 1);
       ret (2 * 2 ^ (mv_class + 2) + (d * 8 + mv_fr * 2 + mv_hp + 1)));
  ret (if mv_sign =? 0 then mag else - mag).

(** [pred] is PredMv, (row, column) *)
Definition read_mv (force_integer_mv allow_high_precision_mv : bool) (pred : Z * Z) : reader (Z * Z) :=
  rd mv_joint <- rsym "mv_joint" [] 4;
  rd drow <- (if (mv_joint =? 2) || (mv_joint =? 3)
              then read_mv_component force_integer_mv allow_high_precision_mv 0 else ret 0);
  rd dcol <- (if (mv_joint =? 1) || (mv_joint =? 3)
              then read_mv_component force_integer_mv allow_high_precision_mv 1 else ret 0);
  ret (fst pred + drow, snd pred + dcol).
