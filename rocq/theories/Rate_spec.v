(** Two-pass data: the byte formats and the queue the second pass should be. *)
From Verif Require Import Base Rate_model.

(** ** Formats *)
(** [n] bytes of [v], least significant first (two's complement) *)
Fixpoint le (n : nat) (v : Z) : list Z :=
  match n with O => [] | S n => v mod 256 :: le n (v / 256) end.
Definition valid_metrics (m : metrics) : Prop :=
  0 <= m_fti m <= 4 /\ - 2 ^ 31 <= m_scale m < 2 ^ 31.
(** frame type with the shown flag in bit 31, then the scale *)
Definition packet_bytes (m : metrics) : list Z :=
  le 4 (m_fti m + (if m_show m then 2 ^ 31 else 0)) ++ le 4 (m_scale m).
Definition sum (l : list Z) : Z := fold_right Z.add 0 l.
Record valid_summary (s : summary) : Prop := {
  vs_ntus : 1 <= s_ntus s <= s_total s;
  vs_nframes : length (s_nframes s) = 5%nat /\ Forall (fun n => 0 <= n) (s_nframes s);
  vs_total : s_total s = sum (s_nframes s) /\ s_total s < 2 ^ 31;
  vs_exp : length (s_exp s) = 4%nat /\ Forall (fun e => 0 <= e < 256) (s_exp s);
  vs_sum : length (s_sum s) = 4%nat /\ Forall (fun x => 0 <= x < 2 ^ 63) (s_sum s)
}.
Definition summary_bytes (s : summary) : list Z :=
  le 4 0x50324156 ++ le 4 1 ++ le 4 (s_ntus s) ++ flat_map (le 4) (s_nframes s) ++
  flat_map (le 1) (s_exp s) ++ flat_map (le 8) (s_sum s).

(** ** Statistics of a list of frames *)
Definition of_type (i : Z) (l : list metrics) : list metrics := filter (fun m => m_fti m =? i) l.
Definition count (l : list metrics) (i : Z) : Z := zlen (of_type i l).
Definition scales (f : Z -> Z) (l : list metrics) (i : Z) : Z := sum (map (fun m => f (m_scale m)) (of_type i l)).
Definition shown (l : list metrics) : Z := zlen (filter m_show l).
Definition by_type (g : Z -> Z) : list Z := [g 0; g 1; g 2; g 3; g 4].
Definition by_coded_type (g : Z -> Z) : list Z := [g 0; g 1; g 2; g 3].
(** the summary a first pass over [ms] should give *)
Definition summary_of (f : Z -> Z) (exps : list Z) (ms : list metrics) : summary :=
  Summary (shown ms) (by_type (count ms)) exps (by_coded_type (scales f ms)) (zlen ms).

(** contents of a circular buffer: [n] entries from [head] *)
Definition ring (buf : list metrics) (head n : Z) : list metrics :=
  map (fun k => nth (Z.to_nat ((head + Z.of_nat k) mod zlen buf)) buf no_metrics) (seq 0 (Z.to_nat n)).
