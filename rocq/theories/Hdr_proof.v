(** Round trips of the header components. *)
From Verif Require Import Base Bits Tile_model Tile_spec Config_model Lrf_model Lrf_spec Sched_model Hdr_model Hdr_spec.

Ltac rt_now := eexists; split; [reflexivity|]; intros rest; reflexivity.

Lemma rt_if {A} (b : bool) w (p : parser A) x d : (b = true -> round_trips w p x) -> (b = false -> x = d) ->
  round_trips (w_if b w) (if b then p else p_ret d) x.
Proof. destruct b; intros H1 H2; cbn [w_if]; [auto|]. rewrite (H2 eq_refl). apply rt_ret. Qed.
Lemma rt_ifn {A} (b : bool) w (p : parser A) x d : (b = false -> round_trips w p x) -> (b = true -> x = d) ->
  round_trips (w_if (negb b) w) (if b then p_ret d else p) x.
Proof. destruct b; intros H1 H2; cbn [w_if negb]; [|auto]. rewrite (H2 eq_refl). apply rt_ret. Qed.
Lemma rt_assert {A} (b : bool) w (p : parser A) x : b = true -> round_trips w p x -> round_trips (w_assert b >>> w) p x.
Proof. intros -> H. apply rt_skip; [reflexivity|exact H]. Qed.
Lemma rt_free {A} w (p : parser A) (f : A -> parser A) x y : True -> round_trips w p x -> f x = p_ret y -> round_trips w (p_bind p f) y.
Proof. intros _ H E. eapply rt_last; eassumption. Qed.
Lemma rt_flat {A B C} w (p : parser A) (f : A -> parser B) (g : B -> parser C) y :
  round_trips w (p_bind p (fun a => p_bind (f a) g)) y -> round_trips w (p_bind (p_bind p f) g) y.
Proof.
  intros (b & E & H). exists b. split; [exact E|]. intros rest. specialize (H rest). unfold p_bind in *.
  destruct (p (b ++ rest)) as [[a l]|]; exact H.
Qed.
(** a parser that reads nothing *)
Lemma rt_pure {A B} w (a : A) (f : A -> parser B) y : round_trips w (f a) y -> round_trips w (p_bind (p_ret a) f) y.
Proof. intros (b & E & H). exists b. split; [exact E|]. intros rest. exact (H rest). Qed.

Lemma rt_signed n v : 1 <= n -> - 2 ^ (n - 1) <= v < 2 ^ (n - 1) -> round_trips (w_signed n v) (p_su n) v.
Proof.
  intros Hn Hv. unfold w_signed, p_su. destruct (Z.leb_spec (- 2 ^ (n - 1)) v); [|lia]. destruct (Z.ltb_spec v (2 ^ (n - 1))); [|lia]. cbn [andb].
  assert (P : 2 ^ n = 2 * 2 ^ (n - 1)) by (rewrite <- Z.pow_succ_r by lia; f_equal; lia).
  eapply rt_last; [apply rt_bits; [lia|]; apply Z.mod_pos_bound; lia|]. cbv beta. f_equal.
  destruct (Z.ltb_spec v 0).
  - replace (v mod 2 ^ n) with (v + 2 ^ n) by (apply Z.mod_unique with (-1); [left|]; lia).
    destruct (Z.ltb_spec (v + 2 ^ n) (2 ^ (n - 1))); lia.
  - rewrite Z.mod_small by lia. destruct (Z.ltb_spec v (2 ^ (n - 1))); lia.
Qed.

Lemma rt_num b : round_trips (w_bit b) (p_f 1) (b2z b). Proof. apply rt_flag_f1. Qed.

(** ** Sequence header *)
Lemma log_bits n : 1 <= n <= 65535 + 1 -> let k := log_in_base_2 (n - 1) + 1 in 1 <= k <= 16 /\ n - 1 < 2 ^ k.
Proof.
  intros H. unfold log_in_base_2. cbv zeta. pose proof (Z.log2_nonneg (n - 1)).
  destruct (Z.eq_dec n 1) as [->|N]; [cbn; lia|]. pose proof (Z.log2_spec (n - 1) ltac:(lia)) as [L U]. rewrite Z.add_1_r.
  split; [|lia]. split; [lia|]. assert (Z.log2 (n - 1) < 16); [|lia]. apply Z.log2_lt_pow2; [lia|]. change (2 ^ 16) with 65536. lia.
Qed.

Definition view_profile (bd : Z) (cs : chroma) : Z :=
  match cs with Cs422 => 2 | Cs444 => if bd =? 12 then 2 else 1 | _ => if bd =? 12 then 2 else 0 end.

(** What a decoder should understand, from the configuration *)
Definition view_color (bd : Z) (cs : chroma) (csp : Z) (full : bool) (color : option (Z * Z * Z)) : s_color :=
  let '(cp, tc, mc) := match color with Some x => x | None => (2, 2, 2) end in
  {| c_bd := bd; c_mono := chroma_eqb cs Cs400; c_cp := cp; c_tc := tc; c_mc := mc; c_full := full;
     c_ssx := match cs with Cs444 => false | _ => true end;
     c_ssy := match cs with Cs420 | Cs400 => true | _ => false end;
     c_csp := match cs with Cs420 => csp | _ => 0 end;
     c_sep := negb (chroma_eqb cs Cs400) |}.

Definition color_ok (c : option (Z * Z * Z)) : Prop :=
  match c with Some (cp, tc, mc) => 0 <= cp < 256 /\ 0 <= tc < 256 /\ 0 <= mc < 256 | None => True end.

Lemma color_config_ok s : (sq_bd s = 8 \/ sq_bd s = 10 \/ sq_bd s = 12) -> sq_profile s = view_profile (sq_bd s) (sq_chroma s) ->
  0 <= sq_csp s < 4 -> color_ok (sq_color s) ->
  (match sq_color s with Some x => is_srgb x | None => false end = true -> sq_chroma s <> Cs400 -> sq_full s = true /\ sq_chroma s = Cs444) ->
  round_trips (w_color_config s) (s_color_config (sq_profile s)) (view_color (sq_bd s) (sq_chroma s) (sq_csp s) (sq_full s) (sq_color s)).
Proof.
  intros Hb Hp Hc Hcol Hs. unfold w_color_config, s_color_config. cbv zeta.
  apply (rt_bind _ _ _ _ (8 <? sq_bd s)); [apply rt_bit|].
  apply (rt_bind _ _ _ _ (sq_bd s)).
  { destruct ((sq_profile s =? 2) && (8 <? sq_bd s)) eqn:E; cbn [w_if].
    - eapply rt_last; [apply rt_bit|]. cbv beta. apply andb_prop in E as [_ E]. destruct Hb as [Hb|[Hb|Hb]]; rewrite Hb in *; [discriminate|reflexivity|reflexivity].
    - replace (if 8 <? sq_bd s then 10 else 8) with (sq_bd s); [apply rt_ret|].
      destruct Hb as [Hb|[Hb|Hb]]; rewrite Hb in *; try reflexivity. rewrite Hp in E. destruct (sq_chroma s); discriminate. }
  set (mono := chroma_eqb (sq_chroma s) Cs400).
  apply (rt_bind _ _ _ _ mono).
  { destruct (Z.eqb_spec (sq_profile s) 1) as [E|E]; [|apply rt_bit].
    replace mono with false; [apply rt_ret|]. unfold mono. rewrite E in Hp. destruct (sq_chroma s); try reflexivity. cbn in Hp. destruct (sq_bd s =? 12); discriminate. }
  apply (rt_bind _ _ _ _ (match sq_color s with Some _ => true | None => false end)); [apply rt_bit|].
  set (col := match sq_color s with Some x => x | None => (2, 2, 2) end).
  apply (rt_bind _ _ _ _ col).
  { unfold col. destruct (sq_color s) as [[[cp tc] mc]|]; [|apply rt_ret]. destruct Hcol as (H1 & H2 & H3).
    eapply rt_bind; [apply rt_bits; lia|]. eapply rt_bind; [apply rt_bits; lia|]. eapply rt_last; [apply rt_bits; lia|reflexivity]. }
  assert (Esr : match sq_color s with Some x => is_srgb x | None => false end = is_srgb col).
  { unfold col. destruct (sq_color s); reflexivity. }
  rewrite Esr in Hs |- *. unfold view_color. fold col. fold mono. destruct col as [[cp tc] mc].
  change ((cp =? 1) && (tc =? 13) && (mc =? 0)) with (is_srgb (cp, tc, mc)).
  destruct mono eqn:Em.
  - cbn [orb w_if]. rewrite w_seq_ret_r. eapply rt_last; [apply rt_bit|]. cbv beta. f_equal. f_equal; unfold mono in Em; destruct (sq_chroma s); (reflexivity || discriminate).
  - assert (Nm : sq_chroma s <> Cs400) by (intros E; unfold mono in Em; rewrite E in Em; discriminate).
    cbn [orb]. destruct (is_srgb (cp, tc, mc)) eqn:E3; cbn [negb w_if].
    + destruct (Hs eq_refl Nm) as (Ef & Ec). rewrite w_seq_ret_l. apply rt_pure. rewrite Ef, Ec. cbn [w_assert chroma_eqb].
      rewrite !w_seq_ret_l. eapply rt_last; [apply rt_bit|]. reflexivity.
    + rewrite <- w_seq_assoc.
      apply (rt_bind _ _ _ _ (sq_full s, match sq_chroma s with Cs444 => false | _ => true end, match sq_chroma s with Cs420 | Cs400 => true | _ => false end,
             match sq_chroma s with Cs420 => sq_csp s | _ => 0 end)).
      2: { eapply rt_last; [apply rt_bit|]. cbv beta. reflexivity. }
      apply (rt_bind _ _ _ _ (sq_full s)); [apply rt_bit|].
      apply (rt_bind _ _ _ _ (match sq_chroma s with Cs444 => false | _ => true end, match sq_chroma s with Cs420 | Cs400 => true | _ => false end)).
      * rewrite Hp. destruct (sq_chroma s) eqn:Ec; try contradiction; destruct Hb as [Hb|[Hb|Hb]]; rewrite Hb; rt_now.
      * destruct (sq_chroma s) eqn:Ec; try contradiction; cbn [fst snd andb chroma_eqb w_if]; try (eapply rt_last; [apply rt_ret|reflexivity]).
        eapply rt_last; [apply rt_bits; lia|reflexivity].
Qed.

Definition view_seq (c : hconfig) : s_seq :=
  let v := hc_v c in
  let col := view_color (hc_bd c) (vc_chroma v) (hc_csp c) (vc_full_range v) (hc_color c) in
  let level := match vc_level v with Some l => l | None => 31 end in
  let filters := (32 <=? vc_width v) && (32 <=? vc_height v) in
  {| q_profile := view_profile (hc_bd c) (vc_chroma v); q_still := vc_still v; q_reduced := vc_still v;
     q_timing := if vc_timing_info v then Some (vc_tb_num v, vc_tb_den v, Some 1) else None;
     q_decoder_model := false; q_ops := [(0, level, 0)];
     q_wbits := Z.log2 (vc_width v - 1) + 1; q_hbits := Z.log2 (vc_height v - 1) + 1; q_maxw := vc_width v; q_maxh := vc_height v;
     q_frame_ids := false; q_sb128 := false; q_filter_intra := false; q_intra_edge := true; q_interintra := false; q_masked := false;
     q_warped := false; q_dual := false; q_order_hint := negb (vc_still v); q_jnt := false; q_refmvs := false;
     q_sct := if vc_still v then 2 else 0; q_imv := 2; q_ohbits := if vc_still v then 0 else 6; q_superres := false;
     q_cdef := hc_cdef c && filters; q_restoration := hc_lrf c && filters;
     q_bd := c_bd col; q_mono := c_mono col; q_cp := c_cp col; q_tc := c_tc col; q_mc := c_mc col; q_full := c_full col;
     q_ssx := c_ssx col; q_ssy := c_ssy col; q_csp := c_csp col; q_sep_uv := c_sep col; q_grain := hc_grain c |}.

(** Field types (chroma_sample_position is an enum of three) and bit depths *)
Record hc_ok (c : hconfig) : Prop := {
  ho_valid : validate (hc_v c) = None;
  ho_typed : typed (hc_v c);
  ho_bd : hc_bd c = 8 \/ hc_bd c = 10 \/ hc_bd c = 12;
  ho_csp : 0 <= hc_csp c < 3;
  ho_color : color_ok (hc_color c);
  ho_srgb : vc_srgb (hc_v c) = option_map is_srgb (hc_color c);
  ho_render : 0 <= vc_render_w (hc_v c) /\ 0 <= vc_render_h (hc_v c)
}.

Lemma check_none b e r : check b e r = None -> b = false /\ r = None.
Proof. destruct b; [discriminate|]. auto. Qed.
Record valid_facts (v : vconfig) : Prop := {
  vf_w : 1 <= vc_width v <= 65535; vf_h : 1 <= vc_height v <= 65535;
  vf_rw : vc_render_w v <= 65535 /\ vc_render_w v <> 0; vf_rh : vc_render_h v <= 65535 /\ vc_render_h v <> 0;
  vf_num : vc_tb_num v < 2 ^ 32; vf_den : vc_tb_den v < 2 ^ 32;
  vf_still : vc_still v = true -> vc_timing_info v = false;
  vf_srgb : vc_srgb v = Some true -> vc_chroma v <> Cs400 -> vc_full_range v = true /\ vc_chroma v = Cs444;
  vf_level : match vc_level v with Some l => l <= 31 | None => True end
}.
Lemma validate_facts v : validate v = None -> valid_facts v.
Proof.
  unfold validate. intros H.
  apply check_none in H as (Bw & H). apply check_none in H as (Bh & H). apply check_none in H as (_ & H). apply check_none in H as (_ & H).
  apply check_none in H as (Rw & H). apply check_none in H as (Rh & H). apply check_none in H as (_ & H). apply check_none in H as (_ & H).
  apply check_none in H as (_ & H). apply check_none in H as (_ & H). apply check_none in H as (Tn & H). apply check_none in H as (Td & H).
  apply check_none in H as (_ & H). apply check_none in H as (_ & H). apply check_none in H as (Ti & H). apply check_none in H as (Sr & H).
  assert (Sz : forall n, bad_size (vc_still v) n = false -> 1 <= n <= 65535).
  { intros n. unfold bad_size. destruct (vc_still v); cbn [negb andb orb]; destruct (Z.ltb_spec n 1), (Z.ltb_spec n 16), (Z.ltb_spec 65535 n); cbn [orb]; intros; lia || discriminate. }
  apply orb_false_elim in Rw as (R1 & R2). apply orb_false_elim in Rh as (R3 & R4). apply orb_false_elim in Tn as (T1 & T2). apply orb_false_elim in Td as (T3 & T4).
  constructor; auto; try lia.
  - intros E N. rewrite E in Sr. destruct (vc_chroma v); cbn in Sr; try contradiction; destruct (vc_full_range v); cbn in Sr; auto; discriminate.
  - destruct (vc_level v) as [l|]; [|exact I]. apply check_none in H as (L & _). lia.
Qed.

Lemma profile_eq c : sq_profile (sequence_of c) = view_profile (hc_bd c) (vc_chroma (hc_v c)).
Proof. cbn. unfold view_profile. destruct (vc_chroma (hc_v c)), (hc_bd c =? 12); reflexivity. Qed.

Lemma sequence_header_ok c : hc_ok c ->
  round_trips (w_sequence_header_obu (sequence_of c) (vc_width (hc_v c)) (vc_height (hc_v c))) s_sequence_header (view_seq c).
Proof.
  intros O. pose proof (validate_facts _ (ho_valid _ O)) as V. destruct (ho_typed _ O) as (_ & _ & _ & _ & _ & Tn & Td & Tl).
  unfold w_sequence_header_obu, s_sequence_header.
  apply rt_assert. { cbn. destruct (vc_still (hc_v c)); reflexivity. }
  apply (rt_bind _ _ _ _ (view_profile (hc_bd c) (vc_chroma (hc_v c)))).
  { rewrite profile_eq. apply rt_bits; [lia|]. change (2 ^ 3) with 8. unfold view_profile. destruct (vc_chroma (hc_v c)), (hc_bd c =? 12); lia. }
  eapply rt_bind; [apply rt_bit|]. eapply rt_bind; [apply rt_bit|]. cbn [sq_still sq_reduced sequence_of].
  set (level := match vc_level (hc_v c) with Some l => l | None => 31 end).
  assert (Lv : 0 <= level <= 31) by (unfold level; pose proof (vf_level _ V) as L; destruct (vc_level (hc_v c)); lia).
  change (sq_level (sequence_of c)) with level.
  apply rt_assert. { destruct (Z.leb_spec level 31); [reflexivity|lia]. }
  apply (rt_bind _ _ _ _ (if vc_timing_info (hc_v c) then Some (vc_tb_num (hc_v c), vc_tb_den (hc_v c), Some 1) else None, false, [(0, level, 0)])).
  { unfold s_operating. change (sq_timing (sequence_of c)) with (vc_timing_info (hc_v c)).
    destruct (vc_still (hc_v c)) eqn:Es.
    - rewrite (vf_still _ V Es). apply rt_assert; [reflexivity|]. eapply rt_last; [apply rt_bits; [lia|]; change (2 ^ 5) with 32; lia|reflexivity].
    - eapply rt_bind; [apply rt_bit|].
      apply (rt_bind _ _ _ _ (if vc_timing_info (hc_v c) then Some (vc_tb_num (hc_v c), vc_tb_den (hc_v c), Some 1) else None, None)).
      + destruct (vc_timing_info (hc_v c)); cbn [w_if]; [|apply rt_ret].
        change (sq_tb_num (sequence_of c)) with (vc_tb_num (hc_v c)). change (sq_tb_den (sequence_of c)) with (vc_tb_den (hc_v c)).
        unfold s_timing_info. apply rt_flat.
        eapply rt_bind; [apply rt_bits; [lia|]; pose proof (vf_num _ V); lia|].
        apply rt_flat. eapply rt_bind; [apply rt_bits; [lia|]; pose proof (vf_den _ V); lia|].
        apply rt_flat. eapply rt_bind; [apply rt_bit|]. cbv iota.
        apply rt_flat. apply (rt_bind _ _ _ _ 0); [rt_now|]. apply rt_pure.
        eapply rt_last; [apply rt_bit|reflexivity].
      + eapply rt_bind; [apply rt_bit|]. eapply rt_bind; [apply rt_bits; [lia|]; change (2 ^ 5) with 32; lia|].
        eapply rt_last; [|reflexivity]. cbn [snd fst]. change (Z.to_nat (0 + 1)) with 1%nat. cbn [p_repeat].
        eapply rt_last; [|reflexivity]. unfold s_operating_point.
        eapply rt_bind; [apply rt_bits; [lia|]; change (2 ^ 12) with 4096; lia|].
        eapply rt_bind; [apply rt_bits; [lia|]; change (2 ^ 5) with 32; lia|].
        apply (rt_last _ _ _ 0); [|reflexivity]. apply rt_if; [|reflexivity]. intros _. apply rt_bits; [lia|]. change (2 ^ 1) with 2. lia. }
  unfold w_sequence_header, w_max_frame_size. cbv zeta.
  pose proof (vf_w _ V) as Hw. pose proof (vf_h _ V) as Hh.
  pose proof (log_bits (vc_width (hc_v c)) ltac:(lia)) as (Kw & Lw). pose proof (log_bits (vc_height (hc_v c)) ltac:(lia)) as (Kh & Lh).
  set (kw := log_in_base_2 (vc_width (hc_v c) - 1) + 1) in *. set (kh := log_in_base_2 (vc_height (hc_v c) - 1) + 1) in *.
  rewrite !w_seq_assoc.
  apply rt_assert; [destruct (Z.leb_spec kw 16); [reflexivity|lia]|]. apply rt_assert; [destruct (Z.leb_spec kh 16); [reflexivity|lia]|].
  eapply rt_bind; [apply rt_bits; [lia|]; change (2 ^ 4) with 16; lia|]. eapply rt_bind; [apply rt_bits; [lia|]; change (2 ^ 4) with 16; lia|].
  unfold u16. rewrite !Z.mod_small by lia. replace (kw - 1 + 1) with kw by lia. replace (kh - 1 + 1) with kh by lia.
  eapply rt_bind; [apply rt_bits; lia|]. eapply rt_bind; [apply rt_bits; lia|].
  apply (rt_bind _ _ _ _ false). { cbn [sq_reduced sequence_of]. apply rt_ifn; [intros; apply rt_bit|reflexivity]. }
  cbv iota. apply rt_pure.
  do 3 (eapply rt_bind; [apply rt_bit|]).
  apply (rt_bind _ _ _ _ (STools false false false false (negb (vc_still (hc_v c))) false false (if vc_still (hc_v c) then 2 else 0) 2 (if vc_still (hc_v c) then 0 else 6))).
  { cbn [sequence_of sq_reduced sq_interintra sq_masked sq_warped sq_dual sq_order_hint sq_jnt sq_refmvs sq_sct sq_imv sq_ohb1].
    destruct (vc_still (hc_v c)); rt_now. }
  do 3 (eapply rt_bind; [apply rt_bit|]).
  eapply rt_bind.
  { rewrite <- profile_eq. apply color_config_ok.
    - exact (ho_bd _ O). - exact (profile_eq c). - pose proof (ho_csp _ O). cbn. lia. - exact (ho_color _ O).
    - intros E N. change (sq_color (sequence_of c)) with (hc_color c) in E. apply (vf_srgb _ V); [|exact N].
      rewrite (ho_srgb _ O). destruct (hc_color c); [|discriminate]. cbn. congruence. }
  eapply rt_last; [apply rt_bit|]. cbv beta iota. f_equal.
  unfold view_seq. fold level. cbn [sequence_of sq_sb128 sq_filter_intra sq_intra_edge sq_superres sq_cdef sq_restoration sq_bd sq_chroma sq_csp sq_full sq_color sq_grain
    t_interintra t_masked t_warped t_dual t_order_hint t_jnt t_refmvs t_sct t_imv t_ohbits].
  replace (vc_width (hc_v c) - 1 + 1) with (vc_width (hc_v c)) by lia. replace (vc_height (hc_v c) - 1 + 1) with (vc_height (hc_v c)) by lia. reflexivity.
Qed.
