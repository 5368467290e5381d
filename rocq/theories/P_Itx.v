(** C58: the reconstruction of a transform block — inverse transform of the rows and columns, rounding,
    flipping, addition to the prediction and clipping — is the one of the AV1 specification, for every
    transform size and type with an implementation.  At bit depth 12 the rows have to conform: their intermediate
    values have to fit 20 bits. *)
From Verif Require Import Base.
From Verif Require Itx_model Itx_spec.
From Verif Require Import Itx_proof.
Local Open Scope Z_scope.

(* the one dimensional transform has to exist for the length: ADST up to 16, identity up to 32 *)
Definition exists_for (sz : Z) (t : Itx_spec.tx_type) : Prop :=
  (match Itx_spec.row_kind t with Itx_spec.Dct => 6 | Itx_spec.Adst => 4 | Itx_spec.Ident => 5 end) >= Itx_spec.tab Itx_spec.Tx_Width_Log2 sz /\
  (match Itx_spec.col_kind t with Itx_spec.Dct => 6 | Itx_spec.Adst => 4 | Itx_spec.Ident => 5 end) >= Itx_spec.tab Itx_spec.Tx_Height_Log2 sz.

Theorem C58_reconstruct : forall (coeffs : Z -> Z) (sz ty bd p y x : Z),
  bd = 8 \/ bd = 10 \/ bd = 12 -> 0 <= sz < 19 -> 0 <= ty < 16 ->
  let t := nth (Z.to_nat ty) Itx_spec.tx_types Itx_spec.DCT_DCT in
  let w := 2 ^ Itx_spec.tab Itx_spec.Tx_Width_Log2 sz in
  let h := 2 ^ Itx_spec.tab Itx_spec.Tx_Height_Log2 sz in
  let Dequant := fun i j => coeffs (i + j * Z.min h 32) in
  exists_for sz t ->
  (forall i j, 0 <= i < Z.min h 32 -> 0 <= j < Z.min w 32 -> Itx_spec.fits (bd + 8) (Dequant i j) = true) ->
  (bd = 12 -> forall i, 0 <= i < Z.min h 32 ->
    Itx_spec.conforms (Itx_spec.row_kind t) (Itx_spec.tab Itx_spec.Tx_Width_Log2 sz) 20 (Itx_spec.row_in bd sz Dequant i) = true) ->
  0 <= y < h -> 0 <= x < w ->
  Itx_model.inverse_transform coeffs sz ty bd p y x = Some (Itx_spec.reconstruct bd sz t Dequant p y x).
Proof.
  intros coeffs sz ty bd p y x Hbd Hsz Hty t w h Dequant [Er Ec] Fit Cf Hy Hx. unfold Itx_model.inverse_transform.
  destruct (nth (Z.to_nat ty) Itx_model.get_1d_tx_types (Itx_model.DCT, Itx_model.DCT)) as [col row] eqn:N.
  assert ((kind_of row = Itx_spec.row_kind t /\ flips row = Itx_spec.flipLR t) /\
          (kind_of col = Itx_spec.col_kind t /\ flips col = Itx_spec.flipUD t)) as [Hr Hc].
  { subst t. clear - Hty N. assert (Z.to_nat ty < 16)%nat as B by lia. revert N B. generalize (Z.to_nat ty). clear. intros n N B.
    do 16 (destruct n as [|n]; [cbn in N |- *; injection N as <- <-; repeat split; reflexivity|]). lia. }
  assert (2 <= Itx_spec.tab Itx_spec.Tx_Width_Log2 sz /\ 2 <= Itx_spec.tab Itx_spec.Tx_Height_Log2 sz /\
          0 <= nth (Z.to_nat sz) Itx_model.INV_INTERMEDIATE_SHIFTS 0) as (Lw & Lh & Sh).
  { clear - Hsz. unfold Itx_spec.tab. assert (Z.to_nat sz < 19)%nat as B by lia. revert B. generalize (Z.to_nat sz). clear. intros n B.
    do 19 (destruct n as [|n]; [cbn; lia|]). lia. }
  apply (two_correct coeffs sz bd t row col Hbd Hr Hc).
  - change (nth (Z.to_nat sz) Itx_model.width_log2s 0) with (Itx_spec.tab Itx_spec.Tx_Width_Log2 sz).
    destruct (Itx_spec.row_kind t); cbn [allowed]; lia.
  - change (nth (Z.to_nat sz) Itx_model.height_log2s 0) with (Itx_spec.tab Itx_spec.Tx_Height_Log2 sz).
    destruct (Itx_spec.col_kind t); cbn [allowed]; lia.
  - exact Sh.
  - intros i j Hi Hj. specialize (Fit i j Hi Hj). unfold Itx_spec.fits in Fit.
    assert (2 ^ (bd + 8 - 1) <= 2 ^ 19) by (apply Z.pow_le_mono_r; lia).
    fold Dequant. change (coeffs (i + j * _)) with (Dequant i j). lia.
  - intros i B Hi. exact (Cf B i Hi).
  - exact Hy.
  - exact Hx.
Qed.
Print Assumptions C58_reconstruct.

(** One dimension, for any range of up to 18 bits (rows at bit depth 10; columns up to bit depth 12) *)
Theorem C58_transform : forall k n r v, 1 <= r <= 18 -> Forall (fun x => Itx_spec.fits r x = true) v ->
  2 <= n <= (match k with Itx_model.DCT => 6 | Itx_model.IDTX => 5 | _ => 4 end) -> zlen v = 2 ^ n ->
  exists l, Itx_model.txfm_fn k n r v = Some l /\ forall i, 0 <= i < 2 ^ n ->
    nth (Z.to_nat i) l 0 =
    match k with
    | Itx_model.DCT => Itx_spec.at_ 0 (Itx_spec.process r (Itx_spec.dct_process n) v) i
    | Itx_model.ADST => Itx_spec.at_ 0 (Itx_spec.transform Itx_spec.Adst n r v) i
    | Itx_model.FLIPADST => Itx_spec.at_ 0 (Itx_spec.transform Itx_spec.Adst n r v) (2 ^ n - 1 - i)
    | Itx_model.IDTX => Itx_spec.at_ 0 (Itx_spec.identity n v) i
    end.
Proof.
  intros k n r v R F N L. destruct (txfm_correct k n r v R) as [l [E Hl]].
  - unfold inputs. eapply Forall_impl; [|exact F]. intros x Fx. unfold Itx_spec.fits in Fx. lia.
  - destruct k; cbn [kind_of allowed]; lia.
  - unfold zlen in L. lia.
  - exists l. split; [exact E|]. intros i Hi. rewrite (Hl i Hi). destruct k; reflexivity.
Qed.
Print Assumptions C58_transform.

(** and for up to 20 bits if the values inside fit: the wrapping of i32 is harmless *)
Theorem C58_conforms : forall k n r v, 1 <= r <= 20 -> Forall (fun x => Itx_spec.fits r x = true) v ->
  2 <= n <= (match k with Itx_model.DCT => 6 | Itx_model.IDTX => 5 | _ => 4 end) -> zlen v = 2 ^ n ->
  Itx_spec.conforms (kind_of k) n r v = true ->
  exists l, Itx_model.txfm_fn k n r v = Some l /\ forall i, 0 <= i < 2 ^ n ->
    nth (Z.to_nat i) l 0 = Itx_spec.at_ 0 (Itx_spec.transform (kind_of k) n r v) (if flips k then 2 ^ n - 1 - i else i).
Proof.
  intros k n r v R F N L C. apply (txfm_conforms k n r v R); [| | |exact C].
  - unfold inputs. eapply Forall_impl; [|exact F]. intros x Fx. unfold Itx_spec.fits in Fx. lia.
  - destruct k; cbn [kind_of allowed]; lia.
  - unfold zlen in L. lia.
Qed.
Print Assumptions C58_conforms.

(** For the streams the specification calls conforming, the saturation in the sums is not there *)
Theorem C58_exact : forall r l T U, Itx_spec.exact r l T = Some U -> Itx_spec.process r l T = U.
Proof.
  intros r l. induction l as [|k l IH]; intros T U E; cbn [Itx_spec.exact] in E; [injection E as <-; reflexivity|].
  unfold Itx_spec.process, Itx_spec.run. cbn [fold_left].
  destruct (Itx_spec.exact_step r T k) as [W|] eqn:Ew; [|discriminate]. rewrite (exact_step_eq r T k W Ew). exact (IH W U E).
Qed.
Print Assumptions C58_exact.

(** With 12 bits the rows have a range of 20 bits, and the butterflies wrap around in i32 for input that
    is in range.  In this case the exact result does not fit, so the stream does not conform. *)
Theorem C58_twelve_bits_refuted :
  ~ (forall v, length v = 4%nat -> Forall (fun x => Itx_spec.fits 20 x = true) v ->
     Itx_model.txfm_fn Itx_model.DCT 2 20 v = Some (Itx_spec.process 20 (Itx_spec.dct_process 2) v)).
Proof.
  intros F. specialize (F [524287; 0; 524287; 0] eq_refl). 
  assert (Forall (fun x => Itx_spec.fits 20 x = true) [524287; 0; 524287; 0]) as G by (repeat constructor).
  specialize (F G). vm_compute in F. discriminate F.
Qed.
Print Assumptions C58_twelve_bits_refuted.

Example case_twelve_bits : Itx_spec.exact 20 (Itx_spec.dct_process 2) [524287; 0; 524287; 0] = None.
Proof. vm_compute. reflexivity. Qed.

(** ** Cases *)
(* an 8x4 block with flipped ADST in both directions; coefficients of both signs *)
Definition case_coeffs (k : Z) : Z := nth (Z.to_nat k) [700; -311; 45; 0; -250; 90; 0; 13; 31; 0; -8; 0; 5] 0.
Example case_flipped : map (fun x => Itx_model.inverse_transform case_coeffs 6 6 8 100 1 x) [0; 1; 2; 3; 4; 5; 6; 7]
  = map (fun x => Some (Itx_spec.reconstruct 8 6 Itx_spec.FLIPADST_FLIPADST (fun i j => case_coeffs (i + j * 4)) 100 1 x)) [0; 1; 2; 3; 4; 5; 6; 7].
Proof. vm_compute. reflexivity. Qed.
(* the transform of a constant: a flat block *)
Example case_dc : map (fun x => Itx_model.inverse_transform (fun k => if k =? 0 then 1024 else 0) 4 0 8 100 63 x) [0; 31; 63] = [Some 108; Some 108; Some 108].
Proof. vm_compute. reflexivity. Qed.
(* 12 bits: a large row that conforms, and one that does not *)
Example case_conforms : Itx_spec.conforms Itx_spec.Dct 3 20 [300000; 100000; -20000; 3000; 0; 0; 500; -70] = true
  /\ Itx_spec.conforms Itx_spec.Dct 3 20 [500000; 400000; -20000; 3000; 0; 0; 500; -70] = false.
Proof. vm_compute. split; reflexivity. Qed.
(* conforming and non conforming input of the smallest DCT *)
Example case_exact : Itx_spec.exact 16 (Itx_spec.dct_process 2) [1000; -300; 20; 7] = Some [447; 572; 814; 995].
Proof. vm_compute. reflexivity. Qed.
Example case_not_exact : Itx_spec.exact 16 (Itx_spec.dct_process 2) [32767; 32767; 0; 0] = None.
Proof. vm_compute. reflexivity. Qed.
(* 64 point DCT of one frequency: 4000 cos ((2 i + 1) 31 pi / 128), rounded *)
Example case_dct64 : map (fun i => nth i (Itx_spec.process 16 (Itx_spec.dct_process 6) (map (fun k => if k =? 31 then 4000 else 0) (Itx_spec.upto 64))) 0) [0; 1; 2; 3]%nat
  = [2897; -2613; -3153; 2303].
Proof. vm_compute. reflexivity. Qed.
