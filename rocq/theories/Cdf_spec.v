(** What rolling back means, without logs: a checkpoint is a full copy of the
    tables and going back puts the copy in place. *)
From Verif Require Import Base Cdf_model.
Local Open Scope Z_scope.

(** The words of table [t] replaced by [vals], everything else kept. *)
Definition put (m : list Z) (t : table) (vals : list Z) : list Z :=
  map (fun iw => let '(i, w) := iw in
                 let j := Z.of_nat i - t_off t in
                 if (0 <=? j) && (j <? zlen vals)
                 then nth (Z.to_nat j) vals 0 else w)
      (combine (seq 0 (length m)) m).

(** Current tables and full copies, oldest first. *)
Record sstate := mkS { s_mem : list Z; s_copies : list (list Z) }.

Definition sstep (ts : list table) (s : sstate) (c : cmd) : option sstate :=
  match c with
  | Adapt k vals =>
      match nth_error ts k with
      | Some t => if zlen vals =? t_len t
                  then Some (mkS (put (s_mem s) t vals) (s_copies s)) else None
      | None => None
      end
  | Save => Some (mkS (s_mem s) (s_copies s ++ [s_mem s]))
  | Back i =>
      match nth_error (s_copies s) i with
      | Some m => Some (mkS m (firstn (S i) (s_copies s)))
      | None => None
      end
  | Forget => Some (mkS (s_mem s) [])
  end.

Fixpoint srun (ts : list table) (s : sstate) (cs : list cmd) : option sstate :=
  match cs with
  | [] => Some s
  | c :: r => match sstep ts s c with None => None | Some s' => srun ts s' r end
  end.

(** [Vec::reserve] leaves at least the requested room. *)
Definition reserves (grow : Z -> Z -> Z -> Z) : Prop :=
  forall cap len extra, len + extra <= grow cap len extra.
