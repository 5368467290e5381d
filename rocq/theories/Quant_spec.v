(** What quantizer selection, scan orders, quantization and dequantization
    must do, stated without reference to how the encoder does it. *)
From Verif Require Import Base.

(** ** Quantizer selection *)

(** The documented contract of [slice::binary_search] on a sorted slice: any
    matching index when there is one, otherwise the insertion point. *)
Definition sorted (l : list Z) : Prop :=
  forall i j, (i <= j < length l)%nat -> nth i l 0 <= nth j l 0.
Definition binary_search_ok (bs : list Z -> Z -> Z + Z) : Prop :=
  forall l x, sorted l ->
  match bs l x with
  | inl i => 0 <= i < zlen l /\ nth (Z.to_nat i) l 0 = x
  | inr i => 0 <= i <= zlen l /\
      forall j, (j < length l)%nat -> if Z.of_nat j <? i then nth j l 0 < x else x < nth j l 0
  end.

(** [|log q - log a| <= |log q - log b|] for positive numbers, multiplied out *)
Definition as_near (q a b : Z) : Prop := Z.max q a * Z.min q b <= Z.max q b * Z.min q a.

(** [i] is the best index in [table] for [q]; anything not positive is below every step. *)
Definition nearest (table : list Z) (q i : Z) : Prop :=
  0 <= i < zlen table /\
  (0 < q -> forall j, (j < length table)%nat -> as_near q (nth (Z.to_nat i) table 0) (nth j table 0)) /\
  (q <= 0 -> i = 0).

(** ** Scan orders (AV1 specification 5.11.41 get_scan and the scan tables)

    A position is (column, row); the encoder stores coefficients column by
    column, [col * h + row]. *)
Definition upto (n : Z) : list Z := map Z.of_nat (seq 0 (Z.to_nat n)).
(** cells of an anti-diagonal, from bottom left to top right *)
Definition diagonal (w h d : Z) : list (Z * Z) :=
  flat_map (fun c => if (0 <=? d - c) && (d - c <? h) then [(c, d - c)] else []) (upto w).
Definition default_scan (w h : Z) : list (Z * Z) :=
  flat_map (fun d =>
    let l := diagonal w h d in
    let up := if w =? h then Z.even d else h <? w in
    if up then l else rev l) (upto (w + h - 1)).
Definition row_scan (w h : Z) : list (Z * Z) := flat_map (fun r => map (fun c => (c, r)) (upto w)) (upto h).
Definition col_scan (w h : Z) : list (Z * Z) := flat_map (fun c => map (fun r => (c, r)) (upto h)) (upto w).
(** only the low 32 x 32 frequencies of a larger transform are coded *)
Definition coded_dim (log2 : Z) : Z := 2 ^ Z.min log2 5.
(** transform types 10 to 15 are one-dimensional: V_DCT, H_DCT, V_ADST, H_ADST, V_FLIPADST, H_FLIPADST *)
Definition spec_scan (wl hl ty : Z) : list Z :=
  let w := coded_dim wl in let h := coded_dim hl in
  map (fun p => fst p * h + snd p)
    (if 10 <=? ty then if Z.even ty then row_scan w h else col_scan w h else default_scan w h).

(** ** Dequantization (AV1 specification 7.12.3) *)
Definition spec_dequant (bd shift step level : Z) : Z :=
  let dq := Z.land (Z.abs level * step) 0xFFFFFF in
  let dq := dq / 2 ^ shift in
  let dq := if level <? 0 then - dq else dq in
  Z.min (Z.max dq (- 2 ^ (7 + bd))) (2 ^ (7 + bd) - 1).

(** ** Quantization

    [level] is an acceptable level for coefficient [c] of a transform whose
    coefficients are scaled down by [2 ^ s]: same sign, less than a step away,
    and rounded away from zero by at most half a step. *)
Definition level_ok (s step c level : Z) : Prop :=
  0 <= level * c /\
  Z.abs c * 2 ^ s - step < Z.abs level * step /\
  2 * (Z.abs level * step - Z.abs c * 2 ^ s) <= step.
