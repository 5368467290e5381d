(** Quantization of a block. *)
From Verif Require Import Base Tile_model Config_model LogExp_model Quant_tables Scan_tables Quant_model Quant_proof Quant_spec Quant_sel Quant_scan.

(** ** What [q_update] leaves *)
Definition q_wf (q : qctx) : Prop :=
  0 <= qc_scale q <= 2 /\ 4 <= qc_dc q < 32768 /\ 4 <= qc_ac q < 32768 /\
  0 <= qc_dc_off q /\ 2 * qc_dc_off q <= qc_dc q /\
  0 <= qc_off_eob q <= qc_off0 q /\ qc_off0 q <= qc_off1 q /\ 2 * qc_off1 q <= qc_ac q /\
  divu_gen (qc_dc q) = Some (qc_dc_div q) /\ divu_gen (qc_ac q) = Some (qc_ac_div q).

Lemma log_tx_scale_range t : 0 <= log_tx_scale t <= 2.
Proof. unfold log_tx_scale, b2z. destruct (256 <? tx_area t), (1024 <? tx_area t); lia. Qed.

Lemma q_at_ok t8 t10 t12 i d bd : table_ok t8 -> table_ok t10 -> table_ok t12 -> In bd [8; 10; 12] ->
  exists v, q_at [t8; t10; t12] i d bd = Some v /\ 4 <= v < 32768.
Proof.
  intros A B C H. unfold q_at.
  set (k := Z.min (Z.max (i + d) 0) 255). assert (Hk : 0 <= k <= 255) by lia. clearbody k.
  assert (F : forall t, table_ok t -> exists v, at_ t k = Some v /\ 4 <= v < 32768).
  { intros t [L [_ R]]. exists (nth (Z.to_nat k) t 0). split; [apply at_nth; unfold zlen; lia|apply R; lia]. }
  cbn [In] in H. destruct H as [<-|[<-|[<-|[]]]].
  - change (at_ [t8; t10; t12] (bd_index 8)) with (Some t8). apply F, A.
  - change (at_ [t8; t10; t12] (bd_index 10)) with (Some t10). apply F, B.
  - change (at_ [t8; t10; t12] (bd_index 12)) with (Some t12). apply F, C.
Qed.
Lemma dc_q_ok i d bd : In bd [8; 10; 12] -> exists v, dc_q i d bd = Some v /\ 4 <= v < 32768.
Proof. apply q_at_ok; [exact dc8|exact dc10|exact dc12]. Qed.
Lemma ac_q_ok i d bd : In bd [8; 10; 12] -> exists v, ac_q i d bd = Some v /\ 4 <= v < 32768.
Proof. apply q_at_ok; [exact ac8|exact ac10|exact ac12]. Qed.

Lemma q_update_ok qi t intra bd dcd acd : In bd [8; 10; 12] ->
  exists q, q_update qi t intra bd dcd acd = Some q /\ q_wf q /\ qc_scale q = log_tx_scale t /\
    dc_q qi dcd bd = Some (qc_dc q) /\ ac_q qi acd bd = Some (qc_ac q).
Proof.
  intros Hbd. unfold q_update.
  destruct (dc_q_ok qi dcd bd Hbd) as [dc [-> Hdc]]. destruct (ac_q_ok qi acd bd Hbd) as [ac [-> Hac]].
  destruct (divu_exact dc 0) as [gd [Gd _]]; [lia..|]. destruct (divu_exact ac 0) as [ga [Ga _]]; [lia..|].
  rewrite Gd, Ga. eexists. split; [reflexivity|]. split; [|auto].
  unfold q_wf. cbn [qc_scale qc_dc qc_ac qc_dc_off qc_off_eob qc_off0 qc_off1 qc_dc_div qc_ac_div].
  split; [apply log_tx_scale_range|]. split; [exact Hdc|]. split; [exact Hac|].
  split; [destruct intra; apply Z.div_pos; lia|].
  split; [destruct intra; Z.div_mod_to_equations; lia|].
  split; [destruct intra; Z.div_mod_to_equations; lia|].
  split; [destruct intra; Z.div_mod_to_equations; lia|].
  split; [destruct intra; Z.div_mod_to_equations; lia|]. auto.
Qed.

(** ** One coefficient *)
Lemma div_by d g x : divu_gen d = Some g -> 0 < d < 2 ^ 32 -> 0 <= x < 2 ^ 32 -> divu_pair x g = Some (x / d).
Proof. intros G Hd Hx. destruct (divu_exact d x Hd Hx) as [g' [G' E]]. congruence. Qed.

(** range of coefficients: no overflow of the scaled value, none of the type *)
Definition coeff_in (tb c : Z) : Prop := - 2 ^ (tb - 1) < c < 2 ^ (tb - 1) /\ Z.abs c <= 2 ^ 28.

Lemma scaled s c : 0 <= s <= 2 -> Z.abs c <= 2 ^ 28 ->
  sw 32 (c * 2 ^ s) = c * 2 ^ s /\ Z.abs (c * 2 ^ s) = Z.abs c * 2 ^ s /\ Z.abs c * 2 ^ s <= 2 ^ 30 /\ 1 <= 2 ^ s <= 4.
Proof.
  intros Hs Hc. assert (P : 1 <= 2 ^ s <= 4).
  { split; [apply (Z.pow_le_mono_r 2 0 s); lia|change 4 with (2 ^ 2); apply Z.pow_le_mono_r; lia]. }
  assert (A : Z.abs (c * 2 ^ s) = Z.abs c * 2 ^ s) by (rewrite Z.abs_mul, (Z.abs_eq (2 ^ s)); lia).
  assert (B : Z.abs c * 2 ^ s <= 2 ^ 28 * 4) by (apply Z.mul_le_mono_nonneg; lia).
  split; [apply sw_id; lia|]. split; [exact A|]. lia.
Qed.

Lemma sign_scaled s c : 0 <= s <= 2 -> (c * 2 ^ s <? 0) = (c <? 0).
Proof.
  intros Hs. assert (P : 0 < 2 ^ s) by (apply Z.pow_pos_nonneg; lia).
  destruct (Z.ltb_spec (c * 2 ^ s) 0); destruct (Z.ltb_spec c 0); try reflexivity; nia.
Qed.

(** a level as produced for the scaled magnitude [A]: the signed level is acceptable *)
Lemma level_signed s step tb c v : 0 <= s <= 2 -> 4 <= step < 32768 -> (tb = 16 \/ tb = 32) -> coeff_in tb c ->
  0 <= v -> Z.abs c * 2 ^ s - step < v * step -> 2 * (v * step - Z.abs c * 2 ^ s) <= step ->
  level_ok s step c (signed_as tb v (c * 2 ^ s)) /\ Z.abs (signed_as tb v (c * 2 ^ s)) = v.
Proof.
  intros Hs Hst Htb [Hc Hc2] Hv Hlo Hhi.
  destruct (scaled s c Hs Hc2) as [_ [_ [HA HP]]].
  assert (V : 2 * v * 4 <= 2 * (Z.abs c * 4) + 4 /\ v <= 2 ^ 30).
  { clear Hlo Htb. assert (2 * v * step <= 2 * (Z.abs c * 2 ^ s) + step) by lia.
    assert (Z.abs c * 2 ^ s <= Z.abs c * 4) by (apply Z.mul_le_mono_nonneg_l; lia).
    destruct (Z.eq_dec v 0) as [->|]; [lia|].
    assert ((2 * v - 1) * 4 <= (2 * v - 1) * step) by (apply Z.mul_le_mono_nonneg_l; lia).
    lia. }
  assert (W : v < 2 ^ (tb - 1)) by (clear Hlo Hhi; destruct Htb as [->| ->]; [change (16 - 1) with 15 in *|change (32 - 1) with 31 in *]; lia).
  assert (E : signed_as tb v (c * 2 ^ s) = if c <? 0 then - v else v).
  { unfold signed_as. rewrite sign_scaled by exact Hs. rewrite (sw_id 32) by lia.
    destruct (c <? 0); apply sw_id; lia. }
  rewrite E. assert (AV : Z.abs (if c <? 0 then - v else v) = v) by (destruct (c <? 0); lia).
  split; [|exact AV]. unfold level_ok. rewrite AV. split; [|split; assumption].
  destruct (Z.ltb_spec c 0); nia.
Qed.

Lemma q_dc_ok q tb c : q_wf q -> (tb = 16 \/ tb = 32) -> coeff_in tb c ->
  exists v, q_dc q tb c = Some v /\ level_ok (qc_scale q) (qc_dc q) c v.
Proof.
  intros [Hs [Hdc [_ [O1 [O2 [_ [_ [_ [G _]]]]]]]]] Htb Hc. unfold q_dc. cbv zeta.
  destruct (scaled _ c Hs (proj2 Hc)) as [E [A [B P]]]. rewrite E, A.
  rewrite u32c_ok by lia. rewrite (div_by _ _ _ G) by lia.
  set (v := (Z.abs c * 2 ^ qc_scale q + qc_dc_off q) / qc_dc q).
  eexists. split; [reflexivity|].
  pose proof (Z.div_mod (Z.abs c * 2 ^ qc_scale q + qc_dc_off q) (qc_dc q) ltac:(lia)) as D.
  pose proof (Z.mod_pos_bound (Z.abs c * 2 ^ qc_scale q + qc_dc_off q) (qc_dc q) ltac:(lia)) as M.
  fold v in D. rewrite (Z.mul_comm (qc_dc q) v) in D.
  apply level_signed; try assumption; [|lia..].
  apply Z.div_pos; lia.
Qed.

Lemma q_ac_ok q mode A : q_wf q -> (mode = 0 \/ mode = 1) -> 0 <= A <= 2 ^ 30 ->
  exists m v, q_ac q mode A = Some (m, v) /\ (m = 0 \/ m = 1) /\ 0 <= v /\
    A - qc_ac q < v * qc_ac q /\ 2 * (v * qc_ac q - A) <= qc_ac q /\
    (qc_ac q <= A + qc_off_eob q -> 0 < v).
Proof.
  intros [Hs [_ [Hac [_ [_ [O1 [O2 [O3 [_ G]]]]]]]]] Hm HA. unfold q_ac.
  rewrite (div_by _ _ _ G) by lia. set (l := A / qc_ac q).
  set (off := if 1 - mode <? l then qc_off1 q else qc_off0 q).
  assert (Ho : qc_off_eob q <= off /\ 2 * off <= qc_ac q) by (unfold off; destruct (1 - mode <? l); lia).
  clearbody off. cbv zeta. rewrite u32c_ok by lia.
  pose proof (Z.div_mod A (qc_ac q) ltac:(lia)) as D.
  pose proof (Z.mod_pos_bound A (qc_ac q) ltac:(lia)) as M. fold l in D. rewrite (Z.mul_comm (qc_ac q) l) in D.
  assert (Hl : 0 <= l) by (apply Z.div_pos; lia). clearbody l.
  rewrite u32c_ok by lia.
  set (v := l + b2z ((l + 1) * qc_ac q <=? A + off)).
  eexists _, v. split; [reflexivity|].
  split; [destruct (negb (mode =? 0) && (v =? 0)); [auto|]; destruct (1 <? v); auto|].
  unfold v, b2z. destruct (Z.leb_spec ((l + 1) * qc_ac q) (A + off)).
  - split; [lia|]. split; [lia|]. split; [lia|]. lia.
  - rewrite Z.add_0_r. split; [lia|]. split; [lia|]. split; [lia|].
    intros K. destruct (Z.eq_dec l 0) as [->|]; lia.
Qed.

(** ** Writing into the output *)
Lemma set_nth_ok {A} (l : list A) i v d : (i < length l)%nat ->
  exists l', set_nth l i v = Some l' /\ length l' = length l /\
    forall j, nth j l' d = if Nat.eqb j i then v else nth j l d.
Proof.
  revert i. induction l as [|x l IH]; intros i Hi; cbn [length] in Hi; [lia|].
  destruct i as [|i]; cbn [set_nth].
  - eexists. split; [reflexivity|]. split; [reflexivity|]. intros [|j]; reflexivity.
  - destruct (IH i ltac:(lia)) as [l' [E [L N]]]. rewrite E. eexists. split; [reflexivity|].
    split; [cbn [length]; congruence|]. intros [|j]; [reflexivity|]. cbn [nth]. rewrite N. reflexivity.
Qed.
Lemma put_ok (l : list Z) i v : 0 <= i < zlen l ->
  exists l', put l i v = Some l' /\ length l' = length l /\
    forall j, nth j l' 0 = if Nat.eqb j (Z.to_nat i) then v else nth j l 0.
Proof.
  intros H. unfold put. destruct (Z.leb_spec 0 i); [|lia]. apply set_nth_ok. unfold zlen in H. lia.
Qed.

(** ** The AC levels *)
Lemma q_loop_ok q tb coeffs l : q_wf q -> (tb = 16 \/ tb = 32) -> Forall (coeff_in tb) coeffs ->
  NoDup l -> Forall (fun p => 0 <= p < zlen coeffs) l ->
  forall mode out, (mode = 0 \/ mode = 1) -> Forall (fun p => 0 <= p < zlen out) l ->
  exists out', q_loop q tb coeffs l mode out = Some out' /\ length out' = length out /\
    (forall j, ~ In (Z.of_nat j) l -> nth j out' 0 = nth j out 0) /\
    (forall p, In p l -> level_ok (qc_scale q) (qc_ac q) (nth (Z.to_nat p) coeffs 0) (nth (Z.to_nat p) out' 0) /\
       (qc_ac q <= Z.abs (nth (Z.to_nat p) coeffs 0) * 2 ^ qc_scale q + qc_off_eob q -> nth (Z.to_nat p) out' 0 <> 0)).
Proof.
  intros W Htb Hco. induction l as [|p l IH]; intros ND Hl mode out Hm Ho; cbn [q_loop].
  - exists out. split; [reflexivity|]. split; [reflexivity|]. split; [reflexivity|]. intros p [].
  - inversion ND as [|? ? Np ND']; subst. inversion Hl as [|? ? Hp Hl']; subst. inversion Ho as [|? ? Hpo Ho']; subst.
    rewrite (at_nth coeffs p Hp). set (c := nth (Z.to_nat p) coeffs 0).
    assert (Hc : coeff_in tb c). { rewrite Forall_forall in Hco. apply Hco, nth_In. unfold zlen in Hp. lia. }
    assert (Hs : 0 <= qc_scale q <= 2) by apply W.
    assert (Hac : 4 <= qc_ac q < 32768) by apply W.
    destruct (scaled _ c Hs (proj2 Hc)) as [E [Ab [B P]]]. cbv zeta. rewrite E, Ab.
    destruct (q_ac_ok q mode (Z.abs c * 2 ^ qc_scale q) W Hm) as [m [v [Q [Hm' [Hv [V1 [V2 V3]]]]]]]; [nia|].
    rewrite Q. cbn [fst snd].
    destruct (level_signed (qc_scale q) (qc_ac q) tb c v Hs Hac Htb Hc Hv V1 V2) as [LO LA].
    set (sv := signed_as tb v (c * 2 ^ qc_scale q)) in *. clearbody sv.
    destruct (put_ok out p sv Hpo) as [out1 [E1 [L1 N1]]]. rewrite E1.
    destruct (IH ND' Hl' m out1 Hm') as [out' [E' [L' [K G]]]].
    { rewrite Forall_forall in *. intros x Hx. unfold zlen. rewrite L1. apply (Ho' x Hx). }
    exists out'. split; [exact E'|]. split; [congruence|]. split.
    + intros j Hj. rewrite K by (intros I; apply Hj; right; exact I). rewrite N1.
      destruct (Nat.eqb_spec j (Z.to_nat p)) as [->|]; [|reflexivity].
      exfalso. apply Hj. left. rewrite Z2Nat.id by lia. reflexivity.
    + intros p' [<-|I]; [|apply G, I]. fold c.
      assert (X : nth (Z.to_nat p) out' 0 = sv).
      { rewrite K by (rewrite Z2Nat.id by lia; exact Np). rewrite N1, Nat.eqb_refl. reflexivity. }
      rewrite X. split; [exact LO|]. intros Y. specialize (V3 Y). lia.
Qed.

(** ** The end of block *)
Lemma last_big_ok tb dz iscan : forall coeffs m, Forall (fun c => c <> - 2 ^ (tb - 1)) coeffs ->
  (length iscan <= length coeffs)%nat ->
  exists m', last_big tb dz iscan coeffs m = Some m' /\ m <= m' /\
    (m' = m \/ m' = 0 \/ exists p, (p < length iscan)%nat /\ nth p iscan 0 = m' /\ dz <= Z.abs (nth p coeffs 0)) /\
    (forall p, (p < length iscan)%nat -> dz <= Z.abs (nth p coeffs 0) -> nth p iscan 0 <= m').
Proof.
  induction iscan as [|i iscan IH]; intros coeffs m Hc Hl; cbn [last_big].
  - exists m. repeat split; auto; cbn [length]; intros; lia.
  - destruct coeffs as [|c coeffs]; cbn [length] in Hl; [lia|]. inversion Hc as [|? ? C0 C']; subst.
    unfold abs_t. destruct (Z.eqb_spec c (- 2 ^ (tb - 1))) as [|_]; [contradiction|].
    set (m1 := Z.max m (if dz <=? Z.abs c then i else 0)).
    destruct (IH coeffs m1 C' ltac:(lia)) as [m' [E [G [O A]]]]. exists m'. split; [exact E|]. split; [lia|]. split.
    + destruct O as [O|[O|[p [Hp [N D]]]]].
      * unfold m1 in O. destruct (Z.leb_spec dz (Z.abs c)).
        -- destruct (Z.max_spec m i) as [[_ X]|[_ X]]; rewrite X in O; [|auto].
           right. right. exists 0%nat. cbn [length nth]. split; [lia|]. auto.
        -- destruct (Z.max_spec m 0) as [[_ X]|[_ X]]; rewrite X in O; auto.
      * auto.
      * right. right. exists (S p). cbn [length nth]. split; [lia|]. auto.
    + intros [|p] Hp D; cbn [nth length] in *; [|apply A; [lia|exact D]].
      destruct (Z.leb_spec dz (Z.abs c)); lia.
Qed.

Lemma scan_end_ok out scan : Forall (fun p => 0 <= p < zlen out) scan ->
  forall e i last, (e <= length scan)%nat ->
  (forall k, (e <= k < length scan)%nat -> nth (Z.to_nat (nth k scan 0)) out 0 = 0) ->
  (e = 0%nat \/ nth (Z.to_nat (nth (e - 1) scan 0)) out 0 <> 0) ->
  scan_end out scan i last = Some (if Nat.eqb e 0 then last else i + Z.of_nat e).
Proof.
  induction scan as [|s scan IH]; intros Hs e i last He Hz Hn; cbn [scan_end].
  - cbn [length] in He. replace e with 0%nat by lia. reflexivity.
  - inversion Hs as [|? ? S0 S']; subst. rewrite (at_nth out s S0). cbn [length] in *.
    destruct e as [|e].
    + cbn [Nat.eqb]. pose proof (Hz 0%nat ltac:(lia)) as Z0. cbn [nth] in Z0. rewrite Z0. cbn [Z.eqb].
      rewrite (IH S' 0%nat); [reflexivity|lia| |auto].
      intros k Hk. apply (Hz (S k)). lia.
    + rewrite (IH S' e); [|lia|intros k Hk; apply (Hz (S k)); lia|].
      * cbn [Nat.eqb]. destruct e as [|e]; cbn [Nat.eqb].
        -- destruct Hn as [|Hn]; [discriminate|]. cbn [Nat.sub nth] in Hn.
           destruct (Z.eqb_spec (nth (Z.to_nat s) out 0) 0) as [X|_]; [contradiction|]. f_equal; lia.
        -- f_equal; lia.
      * destruct e as [|e]; [auto|]. right. destruct Hn as [|Hn]; [discriminate|].
        cbn [Nat.sub nth] in Hn |- *. rewrite Nat.sub_0_r. exact Hn.
Qed.

(** ** Deadzone *)
Lemma deadzone_ok s x : 0 <= s -> forall a, align_shift s x <= a <-> x <= a * 2 ^ s.
Proof.
  intros Hs a. unfold align_shift. assert (P : 0 < 2 ^ s) by (apply Z.pow_pos_nonneg; lia).
  split; intros H.
  - pose proof (Z.div_mod (x + 2 ^ s - 1) (2 ^ s) ltac:(lia)). pose proof (Z.mod_pos_bound (x + 2 ^ s - 1) (2 ^ s) P).
    set (d := (x + 2 ^ s - 1) / 2 ^ s) in *. clearbody d. nia.
  - apply Z.lt_succ_r. apply Z.div_lt_upper_bound; nia.
Qed.

Lemma nodup_app_l (a b : list Z) : NoDup (a ++ b) -> NoDup a.
Proof.
  induction a as [|x a IH]; intros H; [constructor|]. inversion H as [|? ? N D]; subst. constructor; [|apply IH, D].
  intros I. apply N, in_or_app. auto.
Qed.
Lemma nodup_app_r (a b : list Z) : NoDup (a ++ b) -> NoDup b.
Proof. induction a as [|x a IH]; intros H; [exact H|]. inversion H; subst. apply IH. assumption. Qed.

(** ** The whole block *)
Lemma quantize_ok q tb t ty coeffs out w h : q_wf q -> (tb = 16 \/ tb = 32) ->
  0 <= t < 19 -> 0 <= ty < 16 -> nth_error tx_dims (Z.to_nat t) = Some (w, h) ->
  Forall (coeff_in tb) coeffs ->
  let n := coded_dim w * coded_dim h in
  n <= zlen coeffs -> n <= zlen out -> Forall (eq 0) out ->
  exists out' eob, quantize q tb t ty coeffs out = Some (out', eob) /\
    length out' = length out /\ 0 <= eob <= n /\
    (forall k, eob <= k < n -> nth (Z.to_nat (nth (Z.to_nat k) (spec_scan w h ty) 0)) out' 0 = 0) /\
    (0 < eob -> nth (Z.to_nat (nth (Z.to_nat (eob - 1)) (spec_scan w h ty) 0)) out' 0 <> 0) /\
    level_ok (qc_scale q) (qc_dc q) (nth 0 coeffs 0) (nth 0 out' 0) /\
    (forall p, (0 < p < Z.to_nat n)%nat -> level_ok (qc_scale q) (qc_ac q) (nth p coeffs 0) (nth p out' 0)).
Proof.
  intros W Htb Ht Hty Edim Hco n Hn Hno Hz.
  destruct (scan_facts t ty w h Ht Hty Edim) as [s [i [Eso [Es [Ls [Li [Ps Pi]]]]]]]. rewrite <- Es. clear Es.
  fold n in Ls, Li, Ps, Pi.
  assert (Hn1 : 16 <= n).
  { unfold n, coded_dim. clear - Edim Ht.
    assert (I : In (w, h) tx_dims) by (eapply nth_error_In; exact Edim).
    cbn [tx_dims In] in I. repeat (destruct I as [I|I]; [injection I as <- <-; cbn; lia|]). destruct I. }
  clearbody n.
  (* position 0 is first *)
  assert (S0 : nth 0 s 0 = 0).
  { clear - Eso Ht Hty Edim.
    assert (C : forallb (forallb (fun s => nth 0 s 0 =? 0)) scan_table = true) by (vm_compute; reflexivity).
    unfold scan_order in Eso. unfold at_ in Eso. replace (0 <=? t) with true in Eso by lia.
    destruct (nth_error scan_table (Z.to_nat t)) as [row|] eqn:E1; [|discriminate Eso].
    replace (0 <=? ty) with true in Eso by lia.
    destruct (nth_error row (Z.to_nat ty)) as [s'|] eqn:E2; [|discriminate Eso].
    destruct (invert s') as [i'|]; [|discriminate Eso]. assert (s' = s) by congruence. subst s'.
    rewrite forallb_forall in C. specialize (C _ (nth_error_In _ _ E1)). rewrite forallb_forall in C.
    specialize (C _ (nth_error_In _ _ E2)). apply Z.eqb_eq in C. exact C. }
  assert (Ls' : length s = Z.to_nat n) by (unfold zlen in Ls; lia).
  assert (Li' : length i = Z.to_nat n) by (unfold zlen in Li; lia).
  assert (I0 : nth 0 i 0 = 0).
  { destruct (Ps 0%nat ltac:(lia)) as [_ X]. rewrite S0 in X. exact X. }
  unfold quantize. rewrite Eso. cbn [fst snd]. rewrite (at_nth coeffs 0) by lia. cbn [Z.to_nat].
  assert (C0 : coeff_in tb (nth 0 coeffs 0)).
  { rewrite Forall_forall in Hco. apply Hco, nth_In. unfold zlen in Hn. lia. }
  destruct (q_dc_ok q tb _ W Htb C0) as [v0 [E0 LO0]]. rewrite E0.
  destruct (put_ok out 0 v0 ltac:(lia)) as [out1 [E1 [L1 N1]]]. rewrite E1.
  assert (Hs : 0 <= qc_scale q <= 2) by apply W. assert (Hac : 4 <= qc_ac q < 32768) by apply W.
  assert (Hoe : 0 <= qc_off_eob q /\ 2 * qc_off_eob q <= qc_ac q) by (unfold q_wf in W; lia).
  set (x := qc_ac q - qc_off_eob q).
  assert (Hx : 2 <= x < 32768) by (unfold x; lia).
  pose proof (deadzone_ok (qc_scale q) x (proj1 Hs)) as DZ.
  assert (Dr : 1 <= align_shift (qc_scale q) x < 32768).
  { split.
    - destruct (Z.le_gt_cases 1 (align_shift (qc_scale q) x)) as [|L]; [assumption|].
      assert (align_shift (qc_scale q) x <= 0) as L0 by lia. apply DZ in L0. lia.
    - apply Z.le_lt_trans with x; [|lia]. apply DZ. assert (1 <= 2 ^ qc_scale q) by (apply (Z.pow_le_mono_r 2 0); lia). nia. }
  cbv zeta. rewrite (sw_id tb) by (destruct Htb as [->| ->]; cbn; lia).
  set (dz := align_shift (qc_scale q) x) in *. clearbody dz.
  destruct (last_big_ok tb dz i coeffs 0) as [m [Em [M0 [Mo Ma]]]].
  { rewrite Forall_forall in *. intros c Hc. specialize (Hco c Hc). unfold coeff_in in Hco. lia. }
  { unfold zlen in Hn. lia. }
  rewrite Em.
  (* m: the last scan position with a large coefficient, or 0 *)
  assert (Mr : 0 <= m < n).
  { destruct Mo as [->|[->|[p [Hp [<- _]]]]]; [lia|lia|]. apply Pi. exact Hp. }
  set (eob := if 0 <? m then m + 1 else b2z (negb (v0 =? 0))).
  assert (He : 0 <= eob <= n).
  { unfold eob, b2z. destruct (Z.ltb_spec 0 m); [lia|]. destruct (negb (v0 =? 0)); lia. }
  assert (Inj : forall a b, (a < length s)%nat -> (b < length s)%nat -> nth a s 0 = nth b s 0 -> a = b).
  { intros a b Ha Hb E. destruct (Ps a Ha) as [_ A]. destruct (Ps b Hb) as [_ B]. rewrite E in A. lia. }
  assert (NDs : NoDup s) by (apply NoDup_nth with (d := 0); exact Inj).
  set (l := skipn 1 (firstn (Z.to_nat eob) s)).
  (* what l contains *)
  assert (InL : forall p, In p l <-> exists k, (1 <= k < Z.to_nat eob)%nat /\ nth k s 0 = p).
  { intros p. unfold l. split.
    - intros H. apply In_nth with (d := 0) in H. destruct H as [k [Hk Ek]].
      rewrite skipn_length, firstn_length in Hk. exists (k + 1)%nat. split; [lia|].
      rewrite <- Ek. rewrite <- (firstn_skipn 1 (firstn (Z.to_nat eob) s)) in Ek |- *.
      set (f := firstn (Z.to_nat eob) s) in *.
      assert (X : nth (k + 1) s 0 = nth (k + 1) f 0).
      { unfold f. rewrite <- (firstn_skipn (Z.to_nat eob) s) at 1. rewrite app_nth1; [reflexivity|]. rewrite firstn_length. lia. }
      rewrite X. rewrite <- (firstn_skipn 1 f) at 1. rewrite app_nth2; rewrite firstn_length.
      + replace (k + 1 - Nat.min 1 (length f))%nat with k.
        * rewrite (firstn_skipn 1 f). reflexivity.
        * unfold f. rewrite firstn_length. lia.
      + lia.
    - intros [k [Hk Ek]]. rewrite <- Ek.
      set (f := firstn (Z.to_nat eob) s).
      assert (X : nth k s 0 = nth k f 0).
      { unfold f. rewrite <- (firstn_skipn (Z.to_nat eob) s) at 1. rewrite app_nth1; [reflexivity|]. rewrite firstn_length. lia. }
      assert (Lf : length f = Z.to_nat eob) by (unfold f; rewrite firstn_length; lia).
      rewrite X. rewrite <- (firstn_skipn 1 f) at 1. rewrite app_nth2; rewrite firstn_length; [|lia].
      apply nth_In. rewrite skipn_length. lia. }
  assert (NDl : NoDup l).
  { unfold l. rewrite <- (firstn_skipn (Z.to_nat eob) s) in NDs. apply nodup_app_l in NDs.
    rewrite <- (firstn_skipn 1 (firstn (Z.to_nat eob) s)) in NDs. apply nodup_app_r in NDs. exact NDs. }
  assert (Rl : Forall (fun p => 0 <= p < n) l).
  { rewrite Forall_forall. intros p Hp. apply InL in Hp. destruct Hp as [k [Hk <-]]. apply Ps. lia. }
  destruct (q_loop_ok q tb coeffs l W Htb Hco NDl) with (mode := 1) (out := out1) as [out' [E' [L' [K G]]]].
  { eapply Forall_impl; [|exact Rl]. cbv beta. lia. }
  { auto. }
  { eapply Forall_impl; [|exact Rl]. cbv beta. unfold zlen in *. rewrite L1. lia. }
  rewrite E'. clear E'.
  assert (Zs : forall j, nth j out 0 = 0).
  { intros j. destruct (Nat.lt_ge_cases j (length out)); [|apply nth_overflow; lia].
    rewrite Forall_forall in Hz. symmetry. apply Hz, nth_In; assumption. }
  assert (V0 : nth 0 out' 0 = v0).
  { rewrite K, N1; [reflexivity|]. change (Z.of_nat 0) with 0. intros H. apply InL in H. destruct H as [k [Hk Ek]].
    assert (Ek' : nth k s 0 = nth 0 s 0) by congruence. apply Inj in Ek'; lia. }
  (* tail *)
  assert (Tail : forall k, (Z.to_nat eob <= k < length s)%nat -> (0 < k)%nat -> nth (Z.to_nat (nth k s 0)) out' 0 = 0).
  { intros k Hk Hk0. destruct (Ps k ltac:(lia)) as [Rk Ik].
    rewrite K, N1.
    - destruct (Nat.eqb_spec (Z.to_nat (nth k s 0)) (Z.to_nat 0)) as [X|_]; [|apply Zs].
      exfalso. assert (nth k s 0 = nth 0 s 0) as Y by (rewrite S0; lia). apply Inj in Y; lia.
    - rewrite Z2Nat.id by lia. intros H. apply InL in H. destruct H as [k' [Hk' Ek]]. apply Inj in Ek; lia. }
  assert (Tail' : forall k, (Z.to_nat eob <= k < length s)%nat -> nth (Z.to_nat (nth k s 0)) out' 0 = 0).
  { intros k Hk. destruct k as [|k]; [|apply Tail; lia]. rewrite S0. cbn [Z.to_nat]. rewrite V0.
    unfold eob in Hk. destruct (Z.ltb_spec 0 m); [lia|]. destruct (Z.eqb_spec v0 0); [assumption|]. cbn in Hk. lia. }
  assert (Last : 0 < eob -> nth (Z.to_nat (nth (Z.to_nat eob - 1) s 0)) out' 0 <> 0).
  { intros Hp. unfold eob in *. destruct (Z.ltb_spec 0 m) as [Hm|Hm].
    - destruct Mo as [->|[->|[p [Hpl [Ep Dp]]]]]; [lia|lia|].
      replace (Z.to_nat (m + 1) - 1)%nat with (Z.to_nat m) by lia.
      destruct (Pi p Hpl) as [Rp Sp]. rewrite Ep in Sp. rewrite Sp, Nat2Z.id.
      assert (In (Z.of_nat p) l) as Ip. { apply InL. exists (Z.to_nat m). split; [lia|exact Sp]. }
      destruct (G _ Ip) as [_ NZ]. rewrite Nat2Z.id in NZ. apply NZ. apply DZ in Dp. unfold x in Dp. lia.
    - destruct (Z.eqb_spec v0 0) as [X|X]; cbn [negb b2z] in *; [lia|].
      change (Z.to_nat 1 - 1)%nat with 0%nat. rewrite S0. cbn [Z.to_nat]. rewrite V0. exact X. }
  rewrite (scan_end_ok out' s) with (e := Z.to_nat eob).
  - assert (EE : (if Nat.eqb (Z.to_nat eob) 0 then 0 else 0 + Z.of_nat (Z.to_nat eob)) = eob).
    { destruct (Nat.eqb_spec (Z.to_nat eob) 0); lia. }
    rewrite EE, Z.eqb_refl. exists out', eob. split; [reflexivity|]. split; [congruence|]. split; [exact He|].
    split; [intros k Hk; apply Tail'; lia|].
    split; [intros Hp; replace (Z.to_nat (eob - 1)) with (Z.to_nat eob - 1)%nat by lia; apply Last, Hp|].
    split; [rewrite V0; exact LO0|].
    intros p Hp. destruct (Pi p ltac:(lia)) as [Rp Sp].
    set (k := nth p i 0) in *.
    assert (Hk0 : k <> 0). { intros X. rewrite X in Sp. cbn [Z.to_nat] in Sp. rewrite S0 in Sp. lia. }
    destruct (Z.lt_ge_cases k eob) as [Lt|Ge].
    + assert (In (Z.of_nat p) l) as Ip. { apply InL. exists (Z.to_nat k). split; [lia|exact Sp]. }
      destruct (G _ Ip) as [LO _]. rewrite Nat2Z.id in LO. exact LO.
    + assert (nth p out' 0 = 0) as X. { rewrite <- (Nat2Z.id p), <- Sp. apply Tail'. lia. }
      rewrite X. unfold level_ok. rewrite Z.abs_0.
      assert (C : Z.abs (nth p coeffs 0) * 2 ^ qc_scale q < qc_ac q).
      { destruct (Z.lt_ge_cases (Z.abs (nth p coeffs 0) * 2 ^ qc_scale q) (qc_ac q)) as [|B]; [assumption|exfalso].
        assert (dz <= Z.abs (nth p coeffs 0)) as D by (apply DZ; unfold x; lia).
        specialize (Ma p ltac:(lia) D). fold k in Ma. unfold eob in Ge. destruct (Z.ltb_spec 0 m); lia. }
      assert (0 <= Z.abs (nth p coeffs 0) * 2 ^ qc_scale q) by (apply Z.mul_nonneg_nonneg; [lia|apply Z.pow_nonneg; lia]).
      lia.
  - rewrite Forall_forall. intros p Hp. apply In_nth with (d := 0) in Hp. destruct Hp as [k [Hk <-]].
    pose proof (proj1 (Ps k Hk)) as R. unfold zlen in *. rewrite L', L1. lia.
  - lia.
  - exact Tail'.
  - destruct (Z.eq_dec eob 0) as [->|]; [left; reflexivity|right; apply Last; lia].
Qed.
