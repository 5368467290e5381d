(** Motion vectors are read back. *)
From Verif Require Import Sym Mv_model Mv_spec.
Open Scope string_scope.
Open Scope Z_scope.
Open Scope list_scope.

Lemma land1 x : Z.land x 1 = x mod 2.
Proof. change 1 with (Z.ones 1). now rewrite Z.land_ones by lia. Qed.
Lemma land3 x : Z.land x 3 = x mod 4.
Proof. change 3 with (Z.ones 2). now rewrite Z.land_ones by lia. Qed.

Lemma mv_class_facts z : 0 <= z < 16384 ->
  exists c off, get_mv_class z = Some (c, off) /\ 0 <= c <= 10 /\ 0 <= off /\
    ((c = 0 /\ z = off /\ off < 16) \/
     (1 <= c /\ z = 2 * 2 ^ (c + 2) + off /\ off < 8 * 2 ^ c)).
Proof.
  intros Hz. unfold get_mv_class.
  change (CLASS0_SIZE * 4096) with 8192.
  assert (Hcase : exists c, (if 8192 <=? z then 10 else log_in_base_2 (Z.shiftr z 3)) = c /\
     ((c = 0 /\ z < 16) \/ (1 <= c <= 10 /\ 8 * 2 ^ c <= z < 16 * 2 ^ c))).
  { destruct (8192 <=? z) eqn:E.
    - exists 10. split; [reflexivity|]. right. change (2 ^ 10) with 1024. lia.
    - rewrite Z.shiftr_div_pow2 by lia. change (2 ^ 3) with 8.
      assert (Hq : 0 <= z / 8 < 1024) by dlia.
      unfold log_in_base_2, clz32. destruct (z / 8 =? 0) eqn:E0.
      + exists 0. split; [reflexivity|]. left. dlia.
      + assert (Hp : 0 < z / 8) by lia.
        pose proof (Z.log2_spec (z / 8) Hp) as L.
        assert (HL : Z.log2 (z / 8) < 10) by (apply Z.log2_lt_pow2; [lia|exact (proj2 Hq)]).
        pose proof (Z.log2_nonneg (z / 8)).
        exists (Z.log2 (z / 8)). split; [lia|].
        set (k := Z.log2 (z / 8)) in *. clearbody k.
        rewrite Z.pow_succ_r in L by lia.
        destruct (Z.eq_dec k 0) as [->|Hk].
        * left. change (2 ^ 0) with 1 in L. dlia.
        * right. split; [lia|]. set (P := 2 ^ k) in *. clearbody P. dlia. }
  destruct Hcase as [c [-> [[-> Hc]|[Hc Hr]]]].
  - exists 0, z. cbn [Z.eqb negb mv_class_base]. unfold mv_class_base. cbn [Z.eqb negb].
    replace (z - 0 <? 0) with false by lia.
    split; [f_equal; f_equal; lia|]. split; [lia|]. split; [lia|]. left. lia.
  - assert (Hb : mv_class_base c = 8 * 2 ^ c).
    { unfold mv_class_base. replace (c =? 0) with false by lia. cbn [negb].
      rewrite Z.shiftl_mul_pow2 by lia. rewrite Z.pow_add_r by lia.
      change CLASS0_SIZE with 2. change (2 ^ 2) with 4. ring. }
    exists c, (z - 8 * 2 ^ c). cbv zeta. rewrite Hb.
    replace (z - 8 * 2 ^ c <? 0) with false by lia.
    split; [reflexivity|]. split; [lia|]. split; [lia|]. right.
    rewrite Z.pow_add_r by lia. change (2 ^ 2) with 4. lia.
Qed.

Lemma bits_read axis d : forall n i, 0 <= d -> 0 <= i -> i + Z.of_nat n <= 10 ->
  reads (read_mv_bits axis i n) (write_bits axis d i n) ((d / 2 ^ i) mod 2 ^ Z.of_nat n * 2 ^ i).
Proof.
  induction n as [|n IH]; intros i Hd Hi Hn.
  - cbn [read_mv_bits write_bits]. change (2 ^ Z.of_nat 0) with 1. rewrite Z.mod_1_r, Z.mul_0_l.
    apply reads_ret.
  - cbn [read_mv_bits write_bits]. change MV_OFFSET_BITS with 10.
    replace (i <? 10) with true by lia. cbn [wguard].
    rewrite Z.shiftr_div_pow2 by lia. rewrite land1.
    eapply reads_val.
    + eapply reads_bind; [apply reads_sym; dlia|].
      eapply reads_last. apply IH; lia.
    + cbv beta. rewrite Nat2Z.inj_succ, Z.pow_succ_r by lia.
      rewrite Z.pow_add_r by lia. change (2 ^ 1) with 2.
      rewrite <- Z.div_div by lia.
      rewrite Z.rem_mul_r by lia. ring.
Qed.

(** What the precision can express: quarter pel without the high precision
    bit, full pel for integer motion vectors. *)
Definition unit_of (fi hp : bool) : Z := if fi then 8 else if hp then 1 else 2.
Definition prec_of (fi hp : bool) : precision :=
  if fi then MV_SUBPEL_NONE else if hp then MV_SUBPEL_HIGH_PRECISION else MV_SUBPEL_LOW_PRECISION.

Lemma frac_parts off : 0 <= off ->
  off / 8 * 8 + (off / 2) mod 4 * 2 + off mod 2 = off.
Proof. intros. dlia. Qed.

Lemma component_read fi hp comp axis :
  (fi = true -> hp = false) ->
  comp <> 0 -> - 16384 <= comp <= 16384 -> (unit_of fi hp | comp) ->
  reads (read_mv_component fi hp axis) (encode_mv_component comp axis (prec_of fi hp)) comp.
Proof.
  intros Hfh H0 Hr [m Hm].
  unfold encode_mv_component.
  replace (comp =? 0) with false by lia. cbn [negb wguard].
  replace ((MV_LOW <=? comp) && (comp <=? MV_UPP))%bool with true
    by (change MV_LOW with (-16384); change MV_UPP with 16384; lia).
  cbn [wguard].
  set (sign := if comp <? 0 then 1 else 0).
  assert (Hs : sign = 0 /\ 0 < comp \/ sign = 1 /\ comp < 0).
  { unfold sign. destruct (comp <? 0) eqn:E; lia. }
  set (mag := if sign =? 1 then - comp else comp).
  assert (Hmag : comp = (if sign =? 0 then mag else - mag) /\ 1 <= mag <= 16384 /\
                 exists k, mag = k * unit_of fi hp).
  { unfold mag. destruct Hs as [[-> Hs]|[-> Hs]]; cbn [Z.eqb Pos.eqb].
    - split; [reflexivity|]. split; [lia|]. exists m. exact Hm.
    - split; [lia|]. split; [lia|]. exists (- m). lia. }
  clearbody mag. destruct Hmag as [Ec [Hmag [k Hk]]].
  assert (Hsr : 0 <= sign < 2) by lia. clearbody sign. clear Hm m Hr H0 Hs.
  destruct (mv_class_facts (mag - 1) ltac:(lia)) as [c [off [-> [Hc [Ho Hcase]]]]].
  cbv zeta.
  rewrite !Z.shiftr_div_pow2 by lia. change (2 ^ 3) with 8. change (2 ^ 1) with 2.
  rewrite land1, land3.
  (* the fraction bits that are not coded are ones *)
  assert (Hfr : (fi = true -> (off / 2) mod 4 = 3) /\ (hp = false -> off mod 2 = 1)).
  { assert (Hoff : exists q, off = 16 * q + mag - 1 /\ 0 <= mag).
    { destruct Hcase as [[-> [E _]]|[Hc1 [E _]]]; [exists 0; lia|].
      exists (- 2 ^ (c - 1)).
      replace (c + 2) with (c - 1 + 3) in E by lia. rewrite Z.pow_add_r in E by lia.
      change (2 ^ 3) with 8 in E. lia. }
    destruct Hoff as [q [Eo _]]. unfold unit_of in Hk. clear Hcase.
    split; intros ->.
    - dlia.
    - destruct fi; dlia. }
  destruct Hfr as [Hfr3 Hhp1].
  unfold read_mv_component.
  eapply reads_bind; [apply reads_sym; exact Hsr|].
  eapply reads_bind; [apply reads_sym; change MV_CLASSES with 11; lia|].
  eapply reads_val; [|symmetry; exact Ec].
  eapply (reads_last _ _ _ (fun mag => if sign =? 0 then mag else - mag)).
  pose proof (frac_parts off Ho) as FP.
  destruct Hcase as [[-> [Ez Ho16]]|[Hc1 [Ez Hoc]]].
  - cbn [Z.eqb].
    eapply reads_bind; [apply reads_sym; change CLASS0_SIZE with 2; dlia|].
    destruct fi.
    + specialize (Hfr3 eq_refl). specialize (Hfh eq_refl). subst hp. specialize (Hhp1 eq_refl).
      cbn [prec_of prec_val Z.ltb Z.compare Pos.compare Pos.compare_cont CompOpp wif].
      eapply reads_bind; [apply reads_ret|].
      eapply reads_val; [eapply reads_last; apply reads_ret|].
      cbv beta. lia.
    + replace ((0 <=? off / 8) && (off / 8 <? CLASS0_SIZE))%bool with true
        by (change CLASS0_SIZE with 2; dlia).
      destruct hp; cbn [prec_of prec_val Z.ltb Z.compare Pos.compare Pos.compare_cont CompOpp wif wguard].
      * eapply reads_bind; [apply reads_sym; change MV_FP_SIZE with 4; dlia|].
        eapply reads_val; [eapply reads_last; apply reads_sym; dlia|].
        cbv beta. lia.
      * specialize (Hhp1 eq_refl).
        eapply reads_bind; [apply reads_sym; change MV_FP_SIZE with 4; dlia|].
        eapply reads_val; [eapply reads_last; apply reads_ret|].
        cbv beta. lia.
  - replace (c =? 0) with false by lia.
    replace (Z.to_nat (c + CLASS0_BITS - 1)) with (Z.to_nat c)
      by (change CLASS0_BITS with 1; lia).
    pose proof (bits_read axis (off / 8) (Z.to_nat c) 0 ltac:(dlia) ltac:(lia) ltac:(lia)) as HB.
    rewrite Z2Nat.id in HB by lia. change (2 ^ 0) with 1 in HB.
    rewrite Z.div_1_r, Z.mul_1_r, Z.mod_small in HB by (clear - Hoc Ho; dlia).
    eapply reads_bind; [exact HB|].
    destruct fi.
    + specialize (Hfr3 eq_refl). specialize (Hfh eq_refl). subst hp. specialize (Hhp1 eq_refl).
      cbn [prec_of prec_val Z.ltb Z.compare Pos.compare Pos.compare_cont CompOpp wif].
      eapply reads_bind; [apply reads_ret|].
      eapply reads_val; [eapply reads_last; apply reads_ret|].
      cbv beta. lia.
    + destruct hp; cbn [prec_of prec_val Z.ltb Z.compare Pos.compare Pos.compare_cont CompOpp wif wguard].
      * eapply reads_bind; [apply reads_sym; change MV_FP_SIZE with 4; clear; dlia|].
        eapply reads_val; [eapply reads_last; apply reads_sym; clear; dlia|].
        cbv beta. lia.
      * specialize (Hhp1 eq_refl).
        eapply reads_bind; [apply reads_sym; change MV_FP_SIZE with 4; clear; dlia|].
        eapply reads_val; [eapply reads_last; apply reads_ret|].
        cbv beta. lia.
Qed.
