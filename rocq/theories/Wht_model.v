(** Model of the lossless (Walsh-Hadamard) transform path:
    src/transform/forward.rs, forward_shared.rs, inverse.rs, mod.rs (portable
    versions).  Arithmetic on i32 is checked: a result outside i32 is [None],
    like an index out of range or a failed assert. *)
From Verif Require Import Base.

Definition i32c (v : Z) : option Z :=
  if (-2147483648 <=? v) && (v <=? 2147483647) then Some v else None.

Notation "'do' x <- e ; k" := (match e with Some x => k | None => None end)
  (at level 200, x pattern, e at level 100, k at level 200).

(** Slice indexing. *)
Definition wnth {A} (l : list A) (i : Z) : option A :=
  if i <? 0 then None else nth_error l (Z.to_nat i).

(** A loop writing one result per element. *)
Fixpoint omap {A B} (f : A -> option B) (l : list A) : option (list B) :=
  match l with
  | [] => Some []
  | a :: l' => do b <- f a; do bs <- omap f l'; Some (b :: bs)
  end.

(** src/transform/forward_shared.rs lines 1778-1796: fwht4, with the i32
    operations of src/transform/forward.rs lines 38-66
    (add, sub, sub_avg a b = (a - b) >> 1). *)
Definition fwht4 (c : list Z) : option (list Z) :=
  match c with
  | x0 :: x1 :: x2 :: x3 :: rest =>
      do s0 <- i32c (x0 + x1);
      do s1 <- i32c (x3 - x2);
      do d <- i32c (s0 - s1);
      let s2 := Z.shiftr d 1 in
      do q1 <- i32c (s2 - x2);
      do q0 <- i32c (s0 - q1);
      do q3 <- i32c (s2 - x1);
      do q2 <- i32c (s1 + q3);
      Some (q0 :: q1 :: q2 :: q3 :: rest)
  | _ => None
  end.

(** src/transform/inverse.rs lines 35-53: av1_iwht4.  The output slice is
    given by its first four elements, the only ones written. *)
Definition iwht4 (c : list Z) : option (list Z) :=
  match c with
  | x0 :: x1 :: x2 :: x3 :: _ =>
      do s0 <- i32c (x0 + x1);
      do s2 <- i32c (x2 - x3);
      do d <- i32c (s0 - s2);
      let s4 := Z.shiftr d 1 in
      do s3 <- i32c (s4 - x3);
      do s1 <- i32c (s4 - x1);
      do o0 <- i32c (s0 - s3);
      do o3 <- i32c (s2 + s1);
      Some [o0; s3; s1; o3]
  | _ => None
  end.

(** src/util (round_shift): (value + (1 << bit >> 1)) >> bit *)
Definition round_shift (v bit : Z) : option Z :=
  do w <- i32c (v + Z.shiftr (Z.shiftl 1 bit) 1);
  Some (Z.shiftr w bit).

(** src/transform/mod.rs lines 311-324: av1_round_shift_array; `size` is the
    length of the array at every call site.  `<<=` drops the high bits, which
    is an overflow here. *)
Definition round_shift_array (l : list Z) (bit : Z) : option (list Z) :=
  if bit =? 0 then Some l
  else if 0 <? bit then omap (fun v => round_shift v bit) l
  else omap (fun v => i32c (Z.shiftl v (- bit))) l.

(** T::cast_from for coefficients: `as i16` when pixels are u8 and `as i32`
    when they are u16, which wrap. *)
Definition cast_coeff (hbd : bool) (v : Z) : Z :=
  if hbd then (v + 2147483648) mod 4294967296 - 2147483648
  else (v + 32768) mod 65536 - 32768.

(** src/transform/forward_shared.rs line 43: FWD_SHIFT_4X4_WHT = [0, 0, 2] *)
Definition wht_shift0 : Z := 0.
Definition wht_shift1 : Z := 0.
Definition wht_shift2 : Z := 2.

Definition idx4 : list Z := [0; 1; 2; 3].
Definition idx16 : list Z := [0;1;2;3;4;5;6;7;8;9;10;11;12;13;14;15].

(** src/transform/forward.rs lines 72-161: forward_transform for TX_4X4 and
    WHT_WHT.  For this type both 1-D functions are fwht4 (VTX_TAB, HTX_TAB,
    AV1_TXFM_TYPE_LS), there is no flip (get_flip_cfg) and the shifts are
    FWD_SHIFT_4X4_WHT (Txfm2DFlipCfg::fwd).  The output is stored with
    output[c * 4 + r] (lines 144-157). *)
Definition forward_wht (hbd : bool) (stride : Z) (input : list Z)
  : option (list Z) :=
  (* columns *)
  do cols <- omap (fun c =>
      do col <- omap (fun r => wnth input (r * stride + c)) idx4;
      do col <- round_shift_array col (- wht_shift0);
      do col <- fwht4 col;
      round_shift_array col (- wht_shift1)) idx4;
  (* rows of buf, buf[r * 4 + c] = cols[c][r] *)
  do rows <- omap (fun r =>
      do row <- omap (fun col => wnth col r) cols;
      do row <- fwht4 row;
      round_shift_array row (- wht_shift2)) idx4;
  omap (fun i =>
      do row <- wnth rows (i mod 4);
      do v <- wnth row (i / 4);
      Some (cast_coeff hbd v)) idx16.

(** src/util clamp *)
Definition wclamp (v lo hi : Z) : Z :=
  if v <? lo then lo else if hi <? v then hi else v.

(** src/transform/mod.rs lines 303-309: clamp_value *)
Definition clamp_value (v bit : Z) : Z :=
  wclamp v (- Z.shiftl 1 (bit - 1)) (Z.shiftl 1 (bit - 1) - 1).

(** src/transform/inverse.rs lines 1633-1707: inverse_transform_add for TX_4X4
    and WHT_WHT.  rect_type is 0, INV_INTERMEDIATE_SHIFTS[TX_4X4] is 0, both
    1-D functions are av1_iwht4 (get_1d_tx_types).  `pixels` is the 4x4 region
    of the output plane, row after row; temp_in's entries past the fourth are
    zero and unused. *)
Definition inverse_wht_add (bd : Z) (input pixels : list Z)
  : option (list Z) :=
  (* rows: temp_in[k] = input[r + 4 * k] *)
  do rows <- omap (fun r =>
      do t <- omap (fun k =>
          do raw <- wnth input (r + 4 * k);
          Some (clamp_value (Z.shiftr raw 2) (bd + 8))) idx4;
      iwht4 t) idx4;
  (* columns: temp_in[k] = buffer[c + 4 * k] = rows[k][c] *)
  do cols <- omap (fun c =>
      do t <- omap (fun row =>
          do raw <- wnth row c;
          do v <- round_shift raw 0;
          Some (clamp_value v (Z.max (bd + 6) 16))) rows;
      iwht4 t) idx4;
  omap (fun i =>
      do col <- wnth cols (i mod 4);
      do t <- wnth col (i / 4);
      do p <- wnth pixels i;
      do v <- i32c (p + t);
      Some (wclamp v 0 (Z.shiftl 1 bd - 1))) idx16.
