(** What clustering should compute: in every round, each centre moves to the rounded
    mean of the values between the midpoints to its neighbours. *)
From Verif Require Import Base.
Open Scope Z_scope.
Open Scope list_scope.

Definition total (l : list Z) : Z := fold_right Z.add 0 l.
(** mean, a half added and then rounded towards zero *)
Definition mean_of (l : list Z) : Z := Z.quot (total l + zlen l / 2) (zlen l).
Definition between (lo hi : option Z) (d : Z) : bool :=
  match lo with Some a => a <=? d | None => true end && match hi with Some b => d <=? b | None => true end.
Definition move (data : list Z) (lo hi : option Z) (m : Z) : Z :=
  match filter (between lo hi) data with [] => m | l => mean_of l end.
Definition midpoint (a b : Z) : Z := (a + b + 1) / 2.
Fixpoint round_from (data : list Z) (lo : option Z) (ms : list Z) : list Z :=
  match ms with
  | [] => []
  | m :: rest =>
      let hi := match rest with [] => None | m2 :: _ => Some (midpoint m m2) end in
      move data lo hi m :: round_from data hi rest
  end.
Definition round (data ms : list Z) : list Z := round_from data None ms.

(** centres to start with: evenly spaced elements *)
Definition start (k : nat) (data : list Z) : list Z :=
  map (fun i => nth (i * (length data - 1) / (k - 1)) data 0) (seq 0 k).
