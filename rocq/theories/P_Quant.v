(** Properties C30 to C33 and C35: quantizer choice, division, quantization, scans. *)
From Verif Require Import Base Tile_model Config_model LogExp_model Quant_tables Scan_tables Quant_model Quant_proof Quant_spec Quant_sel Quant_scan Quant_idx Quant_run Quant_deq.

(** ** C30 *)
(** Whatever the target (|log q| up to 32, far more than the rate controller can
    ask for), the per-frame temporal scale, the exponential function and the
    binary search used, the choice of indices does not panic or overflow; the
    base index is 1 to 255; every delta written in the header is between -63 and 63
    and gives back the chosen index without wrapping, the AC delta of luma is 0. *)
Theorem C30 : forall bexp bs lt bd cs intra li,
  binary_search_ok bs -> In bd [8; 10; 12] -> - 2 ^ 62 <= lt <= 2 ^ 62 -> - 2 ^ 60 <= li <= 2 ^ 60 ->
  exists dc ac base dcd acd, new_from_log_q bexp bs lt bd cs intra li = Some (dc, ac) /\
    set_quantizers dc ac = (base, dcd, acd) /\
    1 <= base <= 255 /\ nth 0 acd 0 = 0 /\
    forall p, (p < 3)%nat -> p = 0%nat \/ cs <> Cs400 ->
      -63 <= nth p dcd 0 <= 63 /\ -63 <= nth p acd 0 <= 63 /\
      1 <= base + nth p dcd 0 <= 255 /\ 1 <= base + nth p acd 0 <= 255 /\
      base + nth p dcd 0 = nth p dc 0 /\ base + nth p acd 0 = nth p ac 0.
Proof.
  intros bexp bs lt bd cs intra li Hbs Hbd Hlt Hli.
  destruct (indices_ok bexp bs lt bd cs intra li Hbs Hbd Hlt Hli) as (dc & ac & E & Ld & La & Hb & Hp & _).
  exists dc, ac. destruct (set_quantizers dc ac) as [[base dcd] acd] eqn:Es. exists base, dcd, acd.
  split; [exact E|]. split; [reflexivity|]. unfold set_quantizers in Es. injection Es as <- <- <-.
  split; [exact Hb|].
  assert (N : forall l, length l = 3%nat -> forall p, (p < 3)%nat ->
    nth p (map (fun q => sw 8 (q - nth 0 ac 0)) l) 0 = sw 8 (nth p l 0 - nth 0 ac 0)).
  { intros l L p P. rewrite nth_indep with (d' := sw 8 (0 - nth 0 ac 0)) by (rewrite map_length; lia).
    apply (map_nth (fun q => sw 8 (q - nth 0 ac 0))). }
  split; [rewrite N by (assumption || lia); rewrite Z.sub_diag; reflexivity|].
  intros p P C. destruct (Hp p P C) as (H1 & H2 & H3 & H4).
  rewrite !N by assumption. rewrite !sw_id by (cbn; lia). lia.
Qed.
Print Assumptions C30.
(** a linear search as binary search; the encoder's own exponential *)
Fixpoint lsearch (l : list Z) (x i : Z) : Z + Z :=
  match l with
  | [] => inr i
  | y :: l => if y =? x then inl i else if x <? y then inr i else lsearch l x (i + 1)
  end.
Lemma lsearch_ok : binary_search_ok (fun l x => lsearch l x 0).
Proof.
  assert (G : forall l x k pre, sorted (pre ++ l) -> k = zlen pre -> Forall (fun y => y < x) pre ->
    match lsearch l x k with
    | inl i => 0 <= i < zlen (pre ++ l) /\ nth (Z.to_nat i) (pre ++ l) 0 = x
    | inr i => 0 <= i <= zlen (pre ++ l) /\
      forall j, (j < length (pre ++ l))%nat -> if Z.of_nat j <? i then nth j (pre ++ l) 0 < x else x < nth j (pre ++ l) 0
    end).
  { induction l as [|y l IH]; intros x k pre So Hk Hp; cbn [lsearch].
    - rewrite app_nil_r in *. split; [unfold zlen in *; lia|]. intros j Hj. destruct (Z.ltb_spec (Z.of_nat j) k); [|unfold zlen in *; lia].
      rewrite Forall_forall in Hp. apply Hp, nth_In, Hj.
    - destruct (Z.eqb_spec y x) as [->|Ny].
      + unfold zlen in *. rewrite app_length. cbn [length]. split; [lia|].
        rewrite app_nth2 by lia. replace (Z.to_nat k - length pre)%nat with 0%nat by lia. reflexivity.
      + destruct (Z.ltb_spec x y) as [Lt|Ge].
        * unfold zlen in *. rewrite app_length. cbn [length]. split; [lia|]. intros j Hj.
          destruct (Z.ltb_spec (Z.of_nat j) k).
          -- rewrite app_nth1 by lia. rewrite Forall_forall in Hp. apply Hp, nth_In. lia.
          -- specialize (So (length pre) j). rewrite app_length in So. cbn [length] in So. specialize (So ltac:(lia)).
             rewrite (app_nth2 _ _ _ (le_n _)), Nat.sub_diag in So. cbn [nth] in So. lia.
        * replace (pre ++ y :: l) with ((pre ++ [y]) ++ l) in * by (rewrite <- app_assoc; reflexivity).
          apply IH; [exact So| |].
          -- unfold zlen in *. rewrite app_length. cbn [length]. lia.
          -- apply Forall_app. split; [exact Hp|]. constructor; [lia|constructor]. }
  intros l x So. apply (G l x 0 []); [exact So|reflexivity|constructor].
Qed.
Example C30_example :
  new_from_log_q (fun x => match bexp64 x with Some v => v | None => 0 end) (fun l x => lsearch l x 0)
    (6 * 2 ^ 57) 8 Cs420 false 0 = Some ([224; 185; 161], [193; 162; 143]) /\
  set_quantizers [224; 185; 161] [193; 162; 143] = (193, [31; -8; -32], [0; -31; -50]).
Proof. vm_compute. auto. Qed.

(** ** C31 *)
(** For every 64-bit (in fact every) quantizer the selection succeeds with the
    index of the nearest step in the log domain, and a larger quantizer never
    gets a smaller index. *)
Theorem C31 : forall bs bd, binary_search_ok bs -> In bd [8; 10; 12] ->
  forall sel tables, (sel = select_dc_qi bs /\ tables = dc_tables \/ sel = select_ac_qi bs /\ tables = ac_tables) ->
  exists t, table_for tables bd = Some t /\ length t = 256%nat /\
    (forall q, exists i, sel q bd = Some i /\ nearest t q i) /\
    (forall q q' i i', q <= q' -> sel q bd = Some i -> sel q' bd = Some i' -> i <= i').
Proof.
  intros bs bd Hbs Hbd sel tables [[-> ->]|[-> ->]].
  - destruct (select_dc_ok bs 0 bd Hbs Hbd) as (t & _ & Et & T & _). exists t. split; [exact Et|]. split; [apply T|].
    assert (G : forall q, exists i, select_dc_qi bs q bd = Some i /\ chosen t q i).
    { intros q. destruct (select_dc_ok bs q bd Hbs Hbd) as (t' & i & Et' & _ & E & C). exists i. split; [exact E|congruence]. }
    split; [intros q; destruct (G q) as (i & E & C); exists i; split; [exact E|apply C]|].
    intros q q' i i' Hq Ei Ei'. destruct (G q) as (j & Ej & Cj), (G q') as (j' & Ej' & Cj').
    destruct (Z.eq_dec q q') as [->|]; [rewrite Ei in Ei'; injection Ei' as ->; lia|].
    rewrite Ei in Ej. rewrite Ei' in Ej'. injection Ej as <-. injection Ej' as <-. eapply chosen_mono; eauto. lia.
  - destruct (select_ac_ok bs 0 bd Hbs Hbd) as (t & _ & Et & T & _). exists t. split; [exact Et|]. split; [apply T|].
    assert (G : forall q, exists i, select_ac_qi bs q bd = Some i /\ chosen t q i).
    { intros q. destruct (select_ac_ok bs q bd Hbs Hbd) as (t' & i & Et' & _ & E & C). exists i. split; [exact E|congruence]. }
    split; [intros q; destruct (G q) as (i & E & C); exists i; split; [exact E|apply C]|].
    intros q q' i i' Hq Ei Ei'. destruct (G q) as (j & Ej & Cj), (G q') as (j' & Ej' & Cj').
    destruct (Z.eq_dec q q') as [->|]; [rewrite Ei in Ei'; injection Ei' as ->; lia|].
    rewrite Ei in Ej. rewrite Ei' in Ej'. injection Ej as <-. injection Ej' as <-. eapply chosen_mono; eauto. lia.
Qed.
Print Assumptions C31.
Example C31_example : select_ac_qi (fun l x => lsearch l x 0) 1000 8 = Some 224 /\
  select_dc_qi (fun l x => lsearch l x 0) (- 5) 10 = Some 0 /\ select_ac_qi (fun l x => lsearch l x 0) (2 ^ 62) 12 = Some 255.
Proof. vm_compute. auto. Qed.

(** ** C32 *)
Theorem C32 : forall d x, 0 < d < 2 ^ 32 -> 0 <= x < 2 ^ 32 ->
  exists g, divu_gen d = Some g /\ divu_pair x g = Some (x / d).
Proof. exact divu_exact. Qed.
Print Assumptions C32.
Example C32_example : divu_gen 641 = Some (3430613504, 0, 9) /\ divu_pair 4294967295 (3430613504, 0, 9) = Some 6700416.
Proof. vm_compute. auto. Qed.

(** ** C35 *)
(** For every transform size and type the scan is that of the specification, and
    the scan and its inverse are mutually inverse permutations of the coded positions. *)
Theorem C35 : forall t ty w h, 0 <= t < 19 -> 0 <= ty < 16 -> nth_error tx_dims (Z.to_nat t) = Some (w, h) ->
  exists s i, scan_order t ty = Some (s, i) /\ s = spec_scan w h ty /\
    inverse_perms (coded_dim w * coded_dim h) s i.
Proof. exact scan_facts. Qed.
Print Assumptions C35.
Example C35_example : scan_order 0 0 = Some ([0; 4; 1; 2; 5; 8; 12; 9; 6; 3; 7; 10; 13; 14; 11; 15], [0; 2; 3; 9; 1; 4; 8; 10; 5; 7; 11; 14; 6; 12; 13; 15]).
Proof. vm_compute. reflexivity. Qed.
(** The type WHT_WHT is beyond the table. *)
Example C35_wht : scan_order 0 16 = None. Proof. vm_compute. reflexivity. Qed.

(** ** C33 *)
(** For every quantizer index and deltas, transform and coefficients (fewer than 29
    bits and not the minimum of their type), quantization succeeds with the right
    end of block, levels of the right sign less than a step away and rounded up by
    at most half a step, and reconstruction is that of the decoder and less than a
    step (and the truncation) away.  What is missing from the full statement is the
    hypothesis that the product of level and step is below 2 ^ (7 + bit depth) before
    scaling: see [C33_refuted]. *)
Theorem C33_partial : forall qi t ty intra bd dcd acd tb coeffs out w h,
  (tb = 16 /\ bd = 8 \/ tb = 32 /\ In bd [8; 10; 12]) ->
  0 <= t < 19 -> 0 <= ty < 16 -> nth_error tx_dims (Z.to_nat t) = Some (w, h) ->
  Forall (coeff_in tb) coeffs ->
  let n := coded_dim w * coded_dim h in
  let s := log_tx_scale t in
  n <= zlen coeffs -> n <= zlen out -> Forall (eq 0) out ->
  exists q dc ac levels eob r,
    q_update qi t intra bd dcd acd = Some q /\
    dc_q qi dcd bd = Some dc /\ ac_q qi acd bd = Some ac /\
    quantize q tb t ty coeffs out = Some (levels, eob) /\ length levels = length out /\ 0 <= eob <= n /\
    (forall k, eob <= k < n -> nth (Z.to_nat (nth (Z.to_nat k) (spec_scan w h ty) 0)) levels 0 = 0) /\
    (0 < eob -> nth (Z.to_nat (nth (Z.to_nat (eob - 1)) (spec_scan w h ty) 0)) levels 0 <> 0) /\
    dequantize qi levels tb t bd dcd acd = Some r /\ length r = length out /\
    forall p, (p < Z.to_nat n)%nat ->
      let step := if Nat.eqb p 0 then dc else ac in
      level_ok s step (nth p coeffs 0) (nth p levels 0) /\
      (Z.abs (nth p levels 0) * step < 2 ^ (7 + bd + s) ->
       nth p r 0 = spec_dequant bd s step (nth p levels 0) /\
       Z.abs (nth p r 0 - nth p coeffs 0) * 2 ^ s < step + 2 ^ s).
Proof.
  intros qi t ty intra bd dcd acd tb coeffs out w h Htb Ht Hty Ed Hco n s Hn Hno Hz.
  assert (Hbd : In bd [8; 10; 12]) by (destruct Htb as [[_ ->]|[_ H]]; [left; reflexivity|exact H]).
  destruct (q_update_ok qi t intra bd dcd acd Hbd) as (q & Eq & W & Es & Edc & Eac).
  destruct (quantize_ok q tb t ty coeffs out w h W) as (lv & eob & Q & L & He & Tail & Last & D0 & A); try assumption; [lia|].
  fold n in He, Tail, A.
  destruct (dequantize_nth qi lv tb t bd dcd acd (qc_dc q) (qc_ac q) 0 Edc Eac) as (r & R & Lr & _).
  exists q, (qc_dc q), (qc_ac q), lv, eob, r.
  split; [exact Eq|]. split; [exact Edc|]. split; [exact Eac|]. split; [exact Q|]. split; [exact L|].
  split; [exact He|]. split; [exact Tail|]. split; [exact Last|]. split; [exact R|]. split; [congruence|].
  intros p Hp. cbv zeta.
  assert (Hst : 4 <= (if Nat.eqb p 0 then qc_dc q else qc_ac q) < 32768) by (unfold q_wf in W; destruct (Nat.eqb p 0); lia).
  assert (LO : level_ok s (if Nat.eqb p 0 then qc_dc q else qc_ac q) (nth p coeffs 0) (nth p lv 0)).
  { unfold s. rewrite <- Es. destruct p as [|p]; cbn [Nat.eqb]; [exact D0|apply A; lia]. }
  split; [exact LO|]. intros Hr.
  destruct (dequantize_nth qi lv tb t bd dcd acd (qc_dc q) (qc_ac q) p Edc Eac) as (r' & R' & _ & V).
  assert (r' = r) as -> by congruence. rewrite V by (unfold zlen in Hno; lia). fold s.
  destruct (deq_ok tb bd s _ (nth p lv 0) (log_tx_scale_range t) Hst Htb Hr) as [S1 S2].
  split; [exact S1|]. rewrite S2. apply recon_close; [apply log_tx_scale_range|lia|exact LO].
Qed.
Print Assumptions C33_partial.

(** The DC coefficient 32640 of a flat 16x16 residual of 255 at quantizer index 201: the level
    is 83, the decoder reconstructs 32767, the encoder -32751. *)
Definition flat16 : list Z := 32640 :: repeat 0 255.
Theorem C33_refuted :
  ~ (forall qi t ty intra bd dcd acd tb coeffs out w h q levels eob r dc,
  (tb = 16 /\ bd = 8 \/ tb = 32 /\ In bd [8; 10; 12]) ->
  0 <= t < 19 -> 0 <= ty < 16 -> nth_error tx_dims (Z.to_nat t) = Some (w, h) ->
  Forall (coeff_in tb) coeffs ->
  let n := coded_dim w * coded_dim h in
  let s := log_tx_scale t in
  n <= zlen coeffs -> n <= zlen out -> Forall (eq 0) out ->
  q_update qi t intra bd dcd acd = Some q -> dc_q qi dcd bd = Some dc ->
  quantize q tb t ty coeffs out = Some (levels, eob) ->
  dequantize qi levels tb t bd dcd acd = Some r ->
  nth 0 r 0 = spec_dequant bd s dc (nth 0 levels 0)).
Proof.
  intros H.
  assert (W : match q_update 201 2 true 8 0 0 with
    | Some q => match quantize q 16 2 0 flat16 (repeat 0 256) with
      | Some (lv, eob) => match dequantize 201 lv 16 2 8 0 0 with
        | Some r => nth 0 lv 0 = 83 /\ nth 0 r 0 = -32751
        | None => False end
      | None => False end
    | None => False end) by (vm_compute; auto).
  destruct (q_update 201 2 true 8 0 0) as [q|] eqn:Eq; [|destruct W].
  destruct (quantize q 16 2 0 flat16 (repeat 0 256)) as [[lv eob]|] eqn:El; [|destruct W].
  destruct (dequantize 201 lv 16 2 8 0 0) as [r|] eqn:Er; [|destruct W]. destruct W as [W1 W2].
  specialize (H 201 2 0 true 8 0 0 16 flat16 (repeat 0 256) 4 4 q lv eob r 395).
  specialize (H ltac:(auto) ltac:(lia) ltac:(lia) eq_refl). cbv zeta in H.
  assert (F1 : Forall (coeff_in 16) flat16).
  { constructor; [split; [vm_compute; auto|vm_compute; congruence]|].
    apply Forall_forall. intros c Hc. apply repeat_spec in Hc. subst c. split; [vm_compute; auto|vm_compute; congruence]. }
  assert (F2 : Forall (eq 0) (repeat 0 256)).
  { apply Forall_forall. intros c Hc. apply repeat_spec in Hc. congruence. }
  assert (N1 : coded_dim 4 * coded_dim 4 <= zlen flat16) by (vm_compute; congruence).
  assert (N2 : coded_dim 4 * coded_dim 4 <= zlen (repeat 0 256)) by (vm_compute; congruence).
  assert (D : dc_q 201 0 8 = Some 395) by (vm_compute; reflexivity).
  specialize (H F1 N1 N2 F2 Eq D El Er). clear - H W1 W2. rewrite W1, W2 in H. vm_compute in H. discriminate H.
Qed.
Print Assumptions C33_refuted.
(** The hypotheses of [C33_partial] at work: 4x4, quantizer index 100 at 10 bits. *)
Example C33_example :
  let coeffs := [-4000; 700; -350; 0; 90; 0; 0; 0; 40; 0; 0; 0; 0; 0; 0; -60] in
  Forall (coeff_in 32) coeffs /\
  match q_update 100 0 false 10 0 0 with
  | Some q => qc_dc q = 369 /\ qc_ac q = 441 /\
      quantize q 32 0 0 coeffs (repeat 0 16) = Some ([-11; 1; 0; 0; 0; 0; 0; 0; 0; 0; 0; 0; 0; 0; 0; 0], 3) /\
      dequantize 100 [-11; 1; 0; 0; 0; 0; 0; 0; 0; 0; 0; 0; 0; 0; 0; 0] 32 0 10 0 0 =
        Some [-4059; 441; 0; 0; 0; 0; 0; 0; 0; 0; 0; 0; 0; 0; 0; 0]
  | None => False
  end.
Proof. split; [repeat constructor; vm_compute; congruence|]. vm_compute. auto. Qed.
