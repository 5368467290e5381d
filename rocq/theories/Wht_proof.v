(** Proofs about the lossless transform. *)
From Verif Require Import Base Wht_model Wht_spec.

Lemma i32c_some v : -2147483648 <= v <= 2147483647 -> i32c v = Some v.
Proof.
  intros H. unfold i32c.
  replace (-2147483648 <=? v) with true by lia.
  replace (v <=? 2147483647) with true by lia. reflexivity.
Qed.

Lemma shiftr1 v : Z.shiftr v 1 = v / 2.
Proof. rewrite Z.shiftr_div_pow2 by lia. reflexivity. Qed.

(** The forward butterfly and its bounds. *)
Definition f0 (x0 x1 x2 x3 : Z) := x0 + x1 - ((x0 + x1 - (x3 - x2)) / 2 - x2).
Definition f1 (x0 x1 x2 x3 : Z) := (x0 + x1 - (x3 - x2)) / 2 - x2.
Definition f2 (x0 x1 x2 x3 : Z) := x3 - x2 + ((x0 + x1 - (x3 - x2)) / 2 - x1).
Definition f3 (x0 x1 x2 x3 : Z) := (x0 + x1 - (x3 - x2)) / 2 - x1.

Lemma f_bounds M x0 x1 x2 x3 :
  - M <= x0 <= M -> - M <= x1 <= M -> - M <= x2 <= M -> - M <= x3 <= M ->
  (- (2 * M) <= f0 x0 x1 x2 x3 <= 2 * M) /\
  (- (2 * M) <= f1 x0 x1 x2 x3 <= 2 * M) /\
  (- (2 * M) <= f2 x0 x1 x2 x3 <= 2 * M) /\
  (- (2 * M) <= f3 x0 x1 x2 x3 <= 2 * M).
Proof.
  intros. unfold f0, f1, f2, f3.
  pose proof (Z.div_mod (x0 + x1 - (x3 - x2)) 2 ltac:(discriminate)).
  pose proof (Z.mod_pos_bound (x0 + x1 - (x3 - x2)) 2 ltac:(lia)).
  lia.
Qed.

Lemma fwht4_eq M x0 x1 x2 x3 rest :
  - M <= x0 <= M -> - M <= x1 <= M -> - M <= x2 <= M -> - M <= x3 <= M ->
  M <= 100000000 ->
  fwht4 (x0 :: x1 :: x2 :: x3 :: rest) =
  Some (f0 x0 x1 x2 x3 :: f1 x0 x1 x2 x3 :: f2 x0 x1 x2 x3 :: f3 x0 x1 x2 x3
        :: rest).
Proof.
  intros H0 H1 H2 H3 HM.
  pose proof (f_bounds M _ _ _ _ H0 H1 H2 H3) as (B0 & B1 & B2 & B3).
  unfold fwht4.
  rewrite (i32c_some (x0 + x1)) by lia.
  rewrite (i32c_some (x3 - x2)) by lia.
  rewrite (i32c_some (x0 + x1 - (x3 - x2))) by lia.
  rewrite shiftr1.
  fold (f1 x0 x1 x2 x3). fold (f3 x0 x1 x2 x3).
  rewrite (i32c_some (f1 x0 x1 x2 x3)) by lia.
  rewrite (i32c_some (x0 + x1 - f1 x0 x1 x2 x3)) by (unfold f0, f1 in *; lia).
  rewrite (i32c_some (f3 x0 x1 x2 x3)) by lia.
  rewrite (i32c_some (x3 - x2 + f3 x0 x1 x2 x3)) by (unfold f2, f3 in *; lia).
  reflexivity.
Qed.

(** The inverse butterfly. *)
Definition g1 (x0 x1 x2 x3 : Z) := (x0 + x1 - (x2 - x3)) / 2 - x3.
Definition g2 (x0 x1 x2 x3 : Z) := (x0 + x1 - (x2 - x3)) / 2 - x1.
Definition g0 (x0 x1 x2 x3 : Z) := x0 + x1 - g1 x0 x1 x2 x3.
Definition g3 (x0 x1 x2 x3 : Z) := x2 - x3 + g2 x0 x1 x2 x3.

Lemma iwht4_eq M x0 x1 x2 x3 rest :
  - M <= x0 <= M -> - M <= x1 <= M -> - M <= x2 <= M -> - M <= x3 <= M ->
  M <= 100000000 ->
  iwht4 (x0 :: x1 :: x2 :: x3 :: rest) =
  Some [g0 x0 x1 x2 x3; g1 x0 x1 x2 x3; g2 x0 x1 x2 x3; g3 x0 x1 x2 x3].
Proof.
  intros H0 H1 H2 H3 HM.
  unfold iwht4.
  rewrite (i32c_some (x0 + x1)) by lia.
  rewrite (i32c_some (x2 - x3)) by lia.
  rewrite (i32c_some (x0 + x1 - (x2 - x3))) by lia.
  rewrite shiftr1.
  pose proof (Z.div_mod (x0 + x1 - (x2 - x3)) 2 ltac:(discriminate)).
  pose proof (Z.mod_pos_bound (x0 + x1 - (x2 - x3)) 2 ltac:(lia)).
  fold (g1 x0 x1 x2 x3). fold (g2 x0 x1 x2 x3).
  rewrite (i32c_some (g1 x0 x1 x2 x3)) by (unfold g1; lia).
  rewrite (i32c_some (g2 x0 x1 x2 x3)) by (unfold g2; lia).
  fold (g0 x0 x1 x2 x3). fold (g3 x0 x1 x2 x3).
  rewrite (i32c_some (g0 x0 x1 x2 x3)) by (unfold g0, g1; lia).
  rewrite (i32c_some (g3 x0 x1 x2 x3)) by (unfold g3, g2; lia).
  reflexivity.
Qed.

Lemma gf x0 x1 x2 x3 :
  let a := f0 x0 x1 x2 x3 in let b := f1 x0 x1 x2 x3 in
  let c := f2 x0 x1 x2 x3 in let d := f3 x0 x1 x2 x3 in
  g0 a b c d = x0 /\ g1 a b c d = x1 /\ g2 a b c d = x2 /\ g3 a b c d = x3.
Proof.
  cbv zeta. unfold g0, g3, g1, g2.
  replace (f0 x0 x1 x2 x3 + f1 x0 x1 x2 x3) with (x0 + x1)
    by (unfold f0, f1; ring).
  replace (f2 x0 x1 x2 x3 - f3 x0 x1 x2 x3) with (x3 - x2)
    by (unfold f2, f3; ring).
  unfold f1, f3. repeat split; ring.
Qed.

Lemma fg x0 x1 x2 x3 :
  let a := g0 x0 x1 x2 x3 in let b := g1 x0 x1 x2 x3 in
  let c := g2 x0 x1 x2 x3 in let d := g3 x0 x1 x2 x3 in
  f0 a b c d = x0 /\ f1 a b c d = x1 /\ f2 a b c d = x2 /\ f3 a b c d = x3.
Proof.
  cbv zeta. unfold f0, f1, f2, f3.
  replace (g0 x0 x1 x2 x3 + g1 x0 x1 x2 x3) with (x0 + x1)
    by (unfold g0; ring).
  replace (g3 x0 x1 x2 x3 - g2 x0 x1 x2 x3) with (x2 - x3)
    by (unfold g3; ring).
  unfold g1, g2. repeat split; ring.
Qed.

(** Blocks as functions of row and column. *)
Definition blk (f : Z -> Z -> Z) : list Z :=
  map (fun i => f (i / 4) (i mod 4)) idx16.

Definition cpass (X : Z -> Z -> Z) (r c : Z) : Z :=
  let g := if r =? 0 then f0 else if r =? 1 then f1
           else if r =? 2 then f2 else f3 in
  g (X 0 c) (X 1 c) (X 2 c) (X 3 c).
Definition rpass (X : Z -> Z -> Z) (r c : Z) : Z :=
  let g := if c =? 0 then f0 else if c =? 1 then f1
           else if c =? 2 then f2 else f3 in
  g (X r 0) (X r 1) (X r 2) (X r 3).

Definition inb (M : Z) (X : Z -> Z -> Z) : Prop :=
  forall r c, In r idx4 -> In c idx4 -> - M <= X r c <= M.

Lemma in4 r : In r idx4 <-> r = 0 \/ r = 1 \/ r = 2 \/ r = 3.
Proof. unfold idx4; cbn; intuition lia. Qed.

Lemma cpass_b M X : inb M X -> inb (2 * M) (cpass X).
Proof.
  intros H r c Hr Hc.
  pose proof (f_bounds M (X 0 c) (X 1 c) (X 2 c) (X 3 c)
    (H 0 c ltac:(apply in4; auto) Hc) (H 1 c ltac:(apply in4; auto) Hc)
    (H 2 c ltac:(apply in4; auto) Hc) (H 3 c ltac:(apply in4; auto) Hc)).
  unfold cpass. apply in4 in Hr.
  destruct Hr as [ -> | [ -> | [ -> | -> ]]]; cbn [Z.eqb Pos.eqb]; tauto.
Qed.
Lemma rpass_b M X : inb M X -> inb (2 * M) (rpass X).
Proof.
  intros H r c Hr Hc.
  pose proof (f_bounds M (X r 0) (X r 1) (X r 2) (X r 3)
    (H r 0 Hr ltac:(apply in4; auto)) (H r 1 Hr ltac:(apply in4; auto))
    (H r 2 Hr ltac:(apply in4; auto)) (H r 3 Hr ltac:(apply in4; auto))).
  unfold rpass. apply in4 in Hc.
  destruct Hc as [ -> | [ -> | [ -> | -> ]]]; cbn [Z.eqb Pos.eqb]; tauto.
Qed.

Lemma omap_map {A B} (f : A -> option B) g l :
  (forall a, In a l -> f a = Some (g a)) -> omap f l = Some (map g l).
Proof.
  induction l as [|a l IH]; intros H; [reflexivity|].
  cbn [omap map]. rewrite (H a) by (left; reflexivity).
  rewrite IH by (intros; apply H; right; assumption). reflexivity.
Qed.

Lemma omap_map_map {A B C} (f : B -> option C) (h : A -> B) g l :
  (forall a, In a l -> f (h a) = Some (g a)) ->
  omap f (map h l) = Some (map g l).
Proof.
  intros H. induction l as [|a l IH]; [reflexivity|].
  cbn [omap map]. rewrite (H a) by (left; reflexivity).
  rewrite IH by (intros; apply H; right; assumption). reflexivity.
Qed.

Lemma wnth4 {A} (g : Z -> A) r : In r idx4 -> wnth (map g idx4) r = Some (g r).
Proof.
  intros H. apply in4 in H.
  destruct H as [ -> | [ -> | [ -> | -> ]]]; reflexivity.
Qed.

Lemma wnth16 {A} (g : Z -> A) i : In i idx16 -> wnth (map g idx16) i = Some (g i).
Proof.
  unfold idx16 at 1. intros H.
  repeat (destruct H as [<- | H]; [reflexivity|]). destruct H.
Qed.

Lemma in16 i : In i idx16 <-> 0 <= i < 16.
Proof.
  split.
  - unfold idx16. intros H.
    repeat (destruct H as [<- | H]; [lia|]). destruct H.
  - intros H. unfold idx16. cbn [In]. lia.
Qed.

Lemma in4' r : In r idx4 <-> 0 <= r < 4.
Proof. rewrite in4. lia. Qed.

Lemma fwht4_map M (x : Z -> Z) :
  (forall i, In i idx4 -> - M <= x i <= M) -> M <= 100000000 ->
  fwht4 (map x idx4) = Some (map (fun k =>
    let g := if k =? 0 then f0 else if k =? 1 then f1
             else if k =? 2 then f2 else f3 in
    g (x 0) (x 1) (x 2) (x 3)) idx4).
Proof.
  intros H HM. cbn [map idx4].
  rewrite (fwht4_eq M); [reflexivity | | | | | assumption];
    apply H; apply in4; auto.
Qed.

Lemma iwht4_map M (x : Z -> Z) :
  (forall i, In i idx4 -> - M <= x i <= M) -> M <= 100000000 ->
  iwht4 (map x idx4) = Some (map (fun k =>
    let g := if k =? 0 then g0 else if k =? 1 then g1
             else if k =? 2 then g2 else g3 in
    g (x 0) (x 1) (x 2) (x 3)) idx4).
Proof.
  intros H HM. cbn [map idx4].
  rewrite (iwht4_eq M); [reflexivity | | | | | assumption];
    apply H; apply in4; auto.
Qed.

(** The forward transform in closed form. *)
Lemma forward_eq M hbd stride input X :
  (forall r c, In r idx4 -> In c idx4 ->
     wnth input (r * stride + c) = Some (X r c)) ->
  inb M X -> M <= 20000000 ->
  forward_wht hbd stride input =
  Some (map (fun i => cast_coeff hbd (4 * rpass (cpass X) (i mod 4) (i / 4)))
            idx16).
Proof.
  intros HI HX HM. unfold forward_wht.
  rewrite (omap_map _ (fun c => map (fun r => cpass X r c) idx4)).
  2:{ intros c Hc.
      rewrite (omap_map _ (fun r => X r c)) by (intros r Hr; now apply HI).
      change (round_shift_array (map (fun r => X r c) idx4) (- wht_shift0))
        with (Some (map (fun r => X r c) idx4)).
      cbv iota beta.
      rewrite (fwht4_map M) by (lia || (intros; now apply HX)).
      reflexivity. }
  rewrite (omap_map _ (fun r => map (fun c => 4 * rpass (cpass X) r c) idx4)).
  2:{ intros r Hr.
      rewrite (omap_map_map _ _ (fun c => cpass X r c))
        by (intros c Hc; exact (wnth4 (fun r0 => cpass X r0 c) r Hr)).
      pose proof (cpass_b M X HX) as HC.
      pose proof (rpass_b _ _ HC) as HR.
      rewrite (fwht4_map (2 * M)) by (lia || (intros; now apply HC)).
      unfold round_shift_array.
      change (- wht_shift2 =? 0) with false. change (0 <? - wht_shift2) with false.
      cbv iota.
      apply omap_map_map. intros c Hc. change (- - wht_shift2) with 2.
      rewrite Z.shiftl_mul_pow2 by lia. change (2 ^ 2) with 4.
      specialize (HR r c Hr Hc).
      match goal with |- i32c ?v = _ => change v with (rpass (cpass X) r c * 4) end.
      rewrite i32c_some by lia. f_equal. lia. }
  apply omap_map. intros i Hi. apply in16 in Hi.
  rewrite wnth4 by (apply in4'; dlia). rewrite wnth4 by (apply in4'; dlia).
  reflexivity.
Qed.

Lemma clamp_id v bit B :
  2 <= bit -> B <= 2 ^ (bit - 1) - 1 -> - B <= v <= B -> clamp_value v bit = v.
Proof.
  intros Hb HB Hv. unfold clamp_value, wclamp.
  rewrite Z.shiftl_mul_pow2 by lia. rewrite Z.mul_1_l.
  destruct (v <? - 2 ^ (bit - 1)) eqn:E1; [lia|].
  destruct (2 ^ (bit - 1) - 1 <? v) eqn:E2; lia.
Qed.

Lemma rpass_inv X r :
  g0 (rpass X r 0) (rpass X r 1) (rpass X r 2) (rpass X r 3) = X r 0 /\
  g1 (rpass X r 0) (rpass X r 1) (rpass X r 2) (rpass X r 3) = X r 1 /\
  g2 (rpass X r 0) (rpass X r 1) (rpass X r 2) (rpass X r 3) = X r 2 /\
  g3 (rpass X r 0) (rpass X r 1) (rpass X r 2) (rpass X r 3) = X r 3.
Proof. exact (gf (X r 0) (X r 1) (X r 2) (X r 3)). Qed.
Lemma cpass_inv X c :
  g0 (cpass X 0 c) (cpass X 1 c) (cpass X 2 c) (cpass X 3 c) = X 0 c /\
  g1 (cpass X 0 c) (cpass X 1 c) (cpass X 2 c) (cpass X 3 c) = X 1 c /\
  g2 (cpass X 0 c) (cpass X 1 c) (cpass X 2 c) (cpass X 3 c) = X 2 c /\
  g3 (cpass X 0 c) (cpass X 1 c) (cpass X 2 c) (cpass X 3 c) = X 3 c.
Proof. exact (gf (X 0 c) (X 1 c) (X 2 c) (X 3 c)). Qed.

Lemma cast_id hbd v :
  - 32768 <= v <= 32767 \/ (hbd = true /\ -2147483648 <= v <= 2147483647) ->
  cast_coeff hbd v = v.
Proof.
  intros H. unfold cast_coeff. destruct hbd.
  - rewrite Z.mod_small by lia. lia.
  - rewrite Z.mod_small by lia. lia.
Qed.

(** The inverse transform of those coefficients. *)
Lemma inverse_eq M bd X pixels P :
  8 <= bd <= 12 -> 0 <= M -> M <= 2 ^ bd - 1 -> inb M X ->
  (forall i, In i idx16 -> wnth pixels i = Some (P (i / 4) (i mod 4))) ->
  (forall r c, In r idx4 -> In c idx4 -> 0 <= P r c <= 2 ^ bd - 1) ->
  inverse_wht_add bd
    (map (fun i => 4 * rpass (cpass X) (i mod 4) (i / 4)) idx16) pixels
  = Some (map (fun i => wclamp (P (i / 4) (i mod 4) + X (i / 4) (i mod 4))
                               0 (2 ^ bd - 1)) idx16).
Proof.
  intros Hbd HM0 HM HX HP HPb.
  assert (Hp : 2 ^ bd <= 4096).
  { change 4096 with (2 ^ 12). apply Z.pow_le_mono_r; lia. }
  pose proof (cpass_b M X HX) as HC. pose proof (rpass_b _ _ HC) as HR.
  unfold inverse_wht_add.
  rewrite (omap_map _ (fun r => map (fun c => cpass X r c) idx4)).
  2:{ intros r Hr.
      rewrite (omap_map _ (fun k => rpass (cpass X) r k)).
      2:{ intros k Hk. rewrite wnth16.
          2:{ apply in16. apply in4' in Hr. apply in4' in Hk. lia. }
          apply in4' in Hr. apply in4' in Hk.
          replace ((r + 4 * k) mod 4) with r by dlia.
          replace ((r + 4 * k) / 4) with k by dlia.
          rewrite Z.shiftr_div_pow2 by lia. change (2 ^ 2) with 4.
          rewrite Z.mul_comm, Z.div_mul by lia.
          f_equal. apply (clamp_id _ _ (2 * (2 * M))).
          - lia.
          - replace (bd + 8 - 1) with (bd + 7) by lia.
            rewrite Z.pow_add_r by lia. change (2 ^ 7) with 128. lia.
          - apply HR; apply in4'; lia. }
      rewrite (iwht4_map (2 * (2 * M))) by (lia || (intros; now apply HR)).
      pose proof (rpass_inv (cpass X) r) as (E0 & E1 & E2 & E3).
      cbn [map idx4 Z.eqb Pos.eqb]. cbv zeta.
      rewrite E0, E1, E2, E3. reflexivity. }
  rewrite (omap_map _ (fun c => map (fun r => X r c) idx4)).
  2:{ intros c Hc.
      rewrite (omap_map_map _ _ (fun r => cpass X r c)).
      2:{ intros r Hr. rewrite wnth4 by assumption.
          unfold round_shift.
          change (Z.shiftr (Z.shiftl 1 0) 1) with 0.
          specialize (HC r c Hr Hc).
          rewrite Z.add_0_r, i32c_some by lia. rewrite Z.shiftr_0_r.
          f_equal. apply (clamp_id _ _ (2 * M)).
          - lia.
          - transitivity (2 * (2 ^ bd - 1)); [lia|].
            assert (2 ^ (bd + 5) <= 2 ^ (Z.max (bd + 6) 16 - 1))
              by (apply Z.pow_le_mono_r; lia).
            rewrite Z.pow_add_r in H by lia. change (2 ^ 5) with 32 in H.
            lia.
          - assumption. }
      rewrite (iwht4_map (2 * M)) by (lia || (intros; now apply HC)).
      pose proof (cpass_inv X c) as (E0 & E1 & E2 & E3).
      cbn [map idx4 Z.eqb Pos.eqb]. cbv zeta.
      rewrite E0, E1, E2, E3. reflexivity. }
  apply omap_map. intros i Hi. rewrite HP by assumption. apply in16 in Hi.
  assert (H1 : In (i mod 4) idx4) by (apply in4'; dlia).
  assert (H2 : In (i / 4) idx4) by (apply in4'; dlia).
  rewrite !wnth4 by assumption.
  specialize (HPb _ _ H2 H1). specialize (HX _ _ H2 H1).
  rewrite i32c_some by lia.
  rewrite Z.shiftl_mul_pow2, Z.mul_1_l by lia. reflexivity.
Qed.

(** The specification's inverse of the same coefficients. *)
Lemma spec_iwht_g shift T i :
  0 <= shift ->
  spec_iwht shift T i =
  (if i =? 0 then g0 else if i =? 1 then g1 else if i =? 2 then g2 else g3)
    (T 0 / 2 ^ shift) (T 1 / 2 ^ shift) (T 2 / 2 ^ shift) (T 3 / 2 ^ shift).
Proof.
  intros H. unfold spec_iwht, g0, g3, g1, g2. cbv zeta.
  destruct (i =? 0), (i =? 1), (i =? 2); ring.
Qed.

Lemma spec_residual_eq X D r c :
  (forall r c, In r idx4 -> In c idx4 -> D r c = 4 * rpass (cpass X) r c) ->
  In r idx4 -> In c idx4 -> spec_residual D r c = X r c.
Proof.
  intros HD Hr Hc. unfold spec_residual.
  rewrite spec_iwht_g by lia. change (2 ^ 0) with 1. rewrite !Z.div_1_r.
  assert (E : forall r, In r idx4 ->
            spec_iwht 2 (fun j => D r j) c = cpass X r c).
  { clear Hr r. intros r Hr. rewrite spec_iwht_g by lia. change (2 ^ 2) with 4.
    rewrite !HD by (assumption || (apply in4; auto)).
    rewrite !(Z.mul_comm 4), !Z.div_mul by lia.
    pose proof (rpass_inv (cpass X) r) as (E0 & E1 & E2 & E3).
    apply in4 in Hc. destruct Hc as [-> | [-> | [-> | ->]]];
      cbn [Z.eqb Pos.eqb]; assumption. }
  rewrite !E by (apply in4; auto).
  pose proof (cpass_inv X c) as (E0 & E1 & E2 & E3).
  apply in4 in Hr. destruct Hr as [-> | [-> | [-> | ->]]];
    cbn [Z.eqb Pos.eqb]; assumption.
Qed.
