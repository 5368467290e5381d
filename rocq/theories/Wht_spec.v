(** Lossless reconstruction of a 4x4 block, from the AV1 specification:
    sections 7.13.2.10 (inverse Walsh-Hadamard transform process), 7.13.3 (2D
    inverse transform process, Lossless equal to 1) and 7.12.3 (the
    reconstruction: sum clipped to the bit depth).  Written with functions
    on row and column, independently of the model. *)
From Verif Require Import Base.

(** 7.13.2.10 on T[0..3]. *)
Definition spec_iwht (shift : Z) (T : Z -> Z) : Z -> Z :=
  let a := T 0 / 2 ^ shift in
  let c := T 1 / 2 ^ shift in
  let d := T 2 / 2 ^ shift in
  let b := T 3 / 2 ^ shift in
  let a := a + c in
  let d := d - b in
  let e := (a - d) / 2 in
  let b := e - b in
  let c := e - c in
  let a := a - b in
  let d := d + c in
  fun i => if i =? 0 then a else if i =? 1 then b else if i =? 2 then c else d.

(** 7.13.3: rows with shift 2, then columns with shift 0. *)
Definition spec_residual (dequant : Z -> Z -> Z) : Z -> Z -> Z :=
  let rowpass := fun i => spec_iwht 2 (fun j => dequant i j) in
  fun i j => spec_iwht 0 (fun i' => rowpass i' j) i.

Definition spec_clip1 (bd x : Z) : Z :=
  if x <? 0 then 0 else if x >? 2 ^ bd - 1 then 2 ^ bd - 1 else x.

(** CurrFrame[..][..] after reconstruction. *)
Definition spec_recon (bd : Z) (dequant pred : Z -> Z -> Z) : Z -> Z -> Z :=
  fun i j => spec_clip1 bd (pred i j + spec_residual dequant i j).
