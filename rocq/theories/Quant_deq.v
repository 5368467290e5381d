(** Dequantization. *)
From Verif Require Import Base Tile_model Config_model LogExp_model Quant_tables Scan_tables Quant_model Quant_proof Quant_spec Quant_sel Quant_scan Quant_run.

(** the reconstruction of one level, as in [dequantize] *)
Definition deq (tb s step c : Z) : Z :=
  sw tb (Z.shiftr (sw 32 (c * step + (if c <? 0 then 2 ^ s - 1 else 0))) s).

Lemma neg_round x k : 0 <= x -> 0 < k -> (- x + (k - 1)) / k = - (x / k).
Proof.
  intros Hx Hk. symmetry. apply Z.div_unique with (r := k - 1 - x mod k).
  - left. pose proof (Z.mod_pos_bound x k Hk). lia.
  - pose proof (Z.div_mod x k ltac:(lia)). lia.
Qed.

Lemma deq_ok tb bd s step c : 0 <= s <= 2 -> 4 <= step < 32768 -> (tb = 16 /\ bd = 8 \/ tb = 32 /\ In bd [8; 10; 12]) ->
  Z.abs c * step < 2 ^ (7 + bd + s) ->
  deq tb s step c = spec_dequant bd s step c /\
  deq tb s step c = (if c <? 0 then - (Z.abs c * step / 2 ^ s) else Z.abs c * step / 2 ^ s).
Proof.
  intros Hs Hst Htb Hr. unfold deq, spec_dequant. cbv zeta.
  assert (P : 1 <= 2 ^ s <= 4).
  { split; [apply (Z.pow_le_mono_r 2 0 s); lia|change 4 with (2 ^ 2); apply Z.pow_le_mono_r; lia]. }
  assert (Hbd : 8 <= bd <= 12) by (cbn [In] in Htb; lia).
  rewrite Z.pow_add_r in Hr by lia.
  assert (B : 2 ^ (7 + bd) <= 2 ^ 19) by (apply Z.pow_le_mono_r; lia).
  assert (R24 : Z.abs c * step < 2 ^ 24). { change (2 ^ 24) with (2 ^ 19 * 32). nia. }
  set (x := Z.abs c * step) in *. assert (X0 : 0 <= x) by (unfold x; nia).
  change 0xFFFFFF with (Z.ones 24). rewrite Z.land_ones, Z.mod_small by lia.
  assert (D : x / 2 ^ s < 2 ^ (7 + bd)) by (apply Z.div_lt_upper_bound; lia).
  assert (D0 : 0 <= x / 2 ^ s) by (apply Z.div_pos; lia).
  assert (T : x / 2 ^ s < 2 ^ (tb - 1)).
  { destruct Htb as [[-> ->]|[-> _]]; [exact D|]. eapply Z.lt_le_trans; [exact D|]. apply Z.pow_le_mono_r; lia. }
  assert (Tp : 0 < tb) by lia.
  rewrite Z.shiftr_div_pow2 by lia.
  destruct (Z.ltb_spec c 0) as [N|N].
  - assert (E : c * step = - x) by (unfold x; rewrite Z.abs_neq by lia; ring). rewrite E.
    rewrite (sw_id 32) by lia. rewrite neg_round by lia. rewrite sw_id by lia.
    split; [|reflexivity]. rewrite Z.max_l, Z.min_l by lia. reflexivity.
  - assert (E : c * step = x) by (unfold x; rewrite Z.abs_eq by lia; ring). rewrite E, Z.add_0_r.
    rewrite (sw_id 32) by lia. rewrite sw_id by lia.
    split; [|reflexivity]. rewrite Z.max_l, Z.min_l by lia. reflexivity.
Qed.

(** a reconstructed acceptable level is close to the coefficient *)
Lemma recon_close s step c v : 0 <= s -> 0 < step -> level_ok s step c v ->
  Z.abs ((if v <? 0 then - (Z.abs v * step / 2 ^ s) else Z.abs v * step / 2 ^ s) - c) * 2 ^ s < step + 2 ^ s.
Proof.
  intros Hs Hst [S [L U]]. assert (P : 0 < 2 ^ s) by (apply Z.pow_pos_nonneg; lia).
  set (x := Z.abs v * step) in *. assert (X0 : 0 <= x) by (unfold x; nia).
  pose proof (Z.div_mod x (2 ^ s) ltac:(lia)) as D. pose proof (Z.mod_pos_bound x (2 ^ s) P) as M.
  set (d := x / 2 ^ s) in *. assert (D0 : 0 <= d) by (apply Z.div_pos; lia).
  assert (E : Z.abs ((if v <? 0 then - d else d) - c) = Z.abs (d - Z.abs c)).
  { destruct (Z.ltb_spec v 0).
    - assert (c <= 0) by nia. lia.
    - destruct (Z.eq_dec v 0) as [->|].
      + assert (d = 0) by (unfold d, x; reflexivity). lia.
      + assert (0 <= c) by nia. lia. }
  rewrite E. clearbody d x. clear E S. set (a := Z.abs c) in *. clearbody a.
  destruct (Z.abs_spec (d - a)) as [[_ ->]|[_ ->]]; nia.
Qed.

Lemma dequantize_nth qi coeffs tb t bd dcd acd dc ac p : dc_q qi dcd bd = Some dc -> ac_q qi acd bd = Some ac ->
  exists r, dequantize qi coeffs tb t bd dcd acd = Some r /\ length r = length coeffs /\
    ((p < length coeffs)%nat -> nth p r 0 = deq tb (log_tx_scale t) (if Nat.eqb p 0 then dc else ac) (nth p coeffs 0)).
Proof.
  intros Edc Eac. unfold dequantize. rewrite Edc, Eac. cbv zeta.
  destruct coeffs as [|c coeffs]; (eexists; split; [reflexivity|]); cbn [length].
  - split; [reflexivity|lia].
  - split; [rewrite map_length; reflexivity|]. intros Hp. destruct p as [|p]; cbn [nth Nat.eqb]; [reflexivity|].
    rewrite nth_indep with (d' := deq tb (log_tx_scale t) ac 0) by (rewrite map_length; lia).
    rewrite (map_nth (deq tb (log_tx_scale t) ac)). reflexivity.
Qed.
