(** Clustering of sorted integers: /repo/src/util/kmeans.rs. *)
From Verif Require Export Base LogExp_model.
Open Scope Z_scope.
Open Scope list_scope.

(** i64 arithmetic; an overflow is an error *)
Definition i64_ok (x : Z) : bool := (- 2 ^ 63 <=? x) && (x <? 2 ^ 63).
Definition chk64 (x : Z) : option Z := if i64_ok x then Some x else None.

(** [for &d in data.get_unchecked(..n).iter().rev().take_while(test) { s = op s d; n -= 1 }]
    (kmeans.rs:81-84 and 97-100).  Leaving the slice is an error. *)
Fixpoint scan_rev (data : list Z) (test : Z -> bool) (op : Z -> Z -> Z) (n : nat) (s : Z) : option (nat * Z) :=
  match n with
  | O => Some (O, s)
  | S m =>
      do d <- nth_error data m;
      if test d then do s <- chk64 (op s d); scan_rev data test op m s else Some (S m, s)
  end.
(** [for &d in data.get_unchecked(n..).iter().take_while(test) { s = op s d; n += 1 }]
    (kmeans.rs:85-88 and 93-96) *)
Fixpoint scan_list (l : list Z) (test : Z -> bool) (op : Z -> Z -> Z) (n : nat) (s : Z) : option (nat * Z) :=
  match l with
  | [] => Some (n, s)
  | d :: l => if test d then do s <- chk64 (op s d); scan_list l test op (S n) s else Some (n, s)
  end.
Definition scan_fwd (data : list Z) (test : Z -> bool) (op : Z -> Z -> Z) (n : nat) (s : Z) : option (nat * Z) :=
  if (n <=? length data)%nat then scan_list (skipn n data) test op n s else None.

(** one entry of the arrays [means], [low], [high], [sum] *)
Record cluster := { c_mean : Z; c_low : nat; c_high : nat; c_sum : Z }.

(** [scan] (kmeans.rs:70-103): the end of a cluster and the start of the next *)
Definition scan (data : list Z) (t : Z) (c1 c2 : cluster) : option (cluster * cluster) :=
  do a <- scan_rev data (fun d => t <? d) Z.sub (c_high c1) (c_sum c1);
  do b <- scan_fwd data (fun d => d <=? t) Z.add (fst a) (snd a);
  do c <- scan_fwd data (fun d => d <? t) Z.sub (c_low c2) (c_sum c2);
  do d <- scan_rev data (fun d => t <=? d) Z.add (fst c) (snd c);
  Some ({| c_mean := c_mean c1; c_low := c_low c1; c_high := fst b; c_sum := snd b |},
        {| c_mean := c_mean c2; c_low := fst d; c_high := c_high c2; c_sum := snd d |}).

Section Type_.
(** range of the element type T; [try_into().unwrap_unchecked()] outside of it is
    undefined behaviour *)
Variables tmin tmax : Z.
Definition conv (x : Z) : option Z := if (tmin <=? x) && (x <=? tmax) then Some x else None.

(** the loop over neighbouring pairs (kmeans.rs:35-46); the means are not changed
    meanwhile *)
Fixpoint scan_pairs (data : list Z) (c1 : cluster) (rest : list cluster) : option (list cluster) :=
  match rest with
  | [] => Some [c1]
  | c2 :: rest =>
      do t <- conv (Z.shiftr (c_mean c2 + c_mean c1 + 1) 1);
      do r <- scan data t c1 c2;
      do l <- scan_pairs data (snd r) rest;
      Some (fst r :: l)
  end.

(** the new means (kmeans.rs:47-63) and the flag [changed].  [high - low] is on
    usize.  [saturating_div] truncates. *)
Definition new_mean (c : cluster) : option Z :=
  if (c_high c <? c_low c)%nat then None else
  let count := Z.of_nat (c_high c - c_low c) in
  if count =? 0 then Some (c_mean c) else
  do s <- chk64 (c_sum c + Z.shiftr count 1);
  conv (Z.quot s count).
Fixpoint new_means (l : list cluster) : option (list cluster * bool) :=
  match l with
  | [] => Some ([], false)
  | c :: l =>
      do m <- new_mean c;
      do r <- new_means l;
      Some ({| c_mean := m; c_low := c_low c; c_high := c_high c; c_sum := c_sum c |} :: fst r,
            negb (c_mean c =? m) || snd r)
  end.

(** [for _ in 0..limit] (kmeans.rs:34-67) *)
Fixpoint iterate (data : list Z) (limit : nat) (l : list cluster) : option (list cluster) :=
  match limit with
  | O => Some l
  | S limit =>
      match l with
      | [] => None
      | c :: rest =>
          do l <- scan_pairs data c rest;
          do r <- new_means l;
          if snd r then iterate data limit (fst r) else Some (fst r)
      end
  end.

(** [kmeans] (kmeans.rs:11-68) for K = [k].  [i * (data.len() - 1)] is taken not to
    overflow a usize. *)
Definition init_cluster (data : list Z) (k i : nat) : option cluster :=
  let low := (i * (length data - 1) / (k - 1))%nat in
  do m <- nth_error data low;
  Some (if (i =? k - 1)%nat then {| c_mean := m; c_low := low; c_high := length data; c_sum := m |}
        else {| c_mean := m; c_low := low; c_high := low; c_sum := 0 |}).
Fixpoint all_some {A} (l : list (option A)) : option (list A) :=
  match l with
  | [] => Some []
  | x :: l => do a <- x; do r <- all_some l; Some (a :: r)
  end.
Definition kmeans (k : nat) (data : list Z) : option (list Z) :=
  if (length data =? 0)%nat || (k <=? 1)%nat then None else
  do l <- all_some (map (init_cluster data k) (seq 0 k));
  (* 2 * (usize::BITS - leading_zeros) *)
  let limit := Z.to_nat (2 * (Z.log2 (Z.of_nat (length data)) + 1)) in
  do l <- iterate data limit l;
  Some (map c_mean l).
End Type_.
