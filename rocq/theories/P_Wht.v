(** C34: the lossless transform is invertible. *)
From Verif Require Import Base Wht_model Wht_spec Wht_proof.

(** Rows and columns of a 4x4 block. *)
Definition in_block (r c : Z) : Prop := 0 <= r < 4 /\ 0 <= c < 4.

(** A list holds a 4x4 block row after row with the given stride. *)
Definition holds (l : list Z) (stride : Z) (f : Z -> Z -> Z) : Prop :=
  forall r c, in_block r c ->
    0 <= r * stride + c /\
    nth_error l (Z.to_nat (r * stride + c)) = Some (f r c).

Definition pixels_ok (bd : Z) (f : Z -> Z -> Z) : Prop :=
  forall r c, in_block r c -> 0 <= f r c < 2 ^ bd.

(** For every source and prediction: transforming the residual succeeds without
    overflow; the encoder's own inverse applied on top of the prediction gives
    back the source, pixel for pixel; and so does the decoder of the AV1
    specification, reading the coefficients in the transposed order in which
    rav1e stores them.  u8 pixels (hbd = false) store i16 coefficients. *)
Theorem C34_lossless : forall (hbd : bool) (bd stride : Z)
    (input pixels : list Z) (src pred : Z -> Z -> Z),
  8 <= bd <= 12 -> (hbd = false -> bd = 8) ->
  pixels_ok bd src -> pixels_ok bd pred ->
  holds input stride (fun r c => src r c - pred r c) ->
  holds pixels 4 pred ->
  exists coeffs recon,
    forward_wht hbd stride input = Some coeffs /\
    inverse_wht_add bd coeffs pixels = Some recon /\
    length recon = 16%nat /\ holds recon 4 src /\
    (forall r c, in_block r c ->
       spec_recon bd (fun i j => nth (Z.to_nat (4 * j + i)) coeffs 0) pred r c
       = src r c).
Proof.
  intros hbd bd stride input pixels src pred Hbd Hh Hs Hp Hin Hpx.
  set (X := fun r c => src r c - pred r c) in *.
  assert (Hpow : 2 ^ bd <= 4096).
  { change 4096 with (2 ^ 12). apply Z.pow_le_mono_r; lia. }
  assert (Hpow1 : 1 <= 2 ^ bd).
  { change 1 with (2 ^ 0) at 1. apply Z.pow_le_mono_r; lia. }
  assert (HX : inb (2 ^ bd - 1) X).
  { intros r c Hr Hc. apply in4' in Hr. apply in4' in Hc. unfold X.
    specialize (Hs r c (conj Hr Hc)). specialize (Hp r c (conj Hr Hc)). lia. }
  pose proof (rpass_b _ _ (cpass_b _ _ HX)) as HR.
  assert (Hc4 : forall r c, In r idx4 -> In c idx4 ->
     cast_coeff hbd (4 * rpass (cpass X) r c) = 4 * rpass (cpass X) r c).
  { intros r c Hr Hc. specialize (HR r c Hr Hc). apply cast_id.
    destruct hbd; [right; split; [reflexivity|lia]|left].
    specialize (Hh eq_refl). subst bd. change (2 ^ 8) with 256 in HR. lia. }
  assert (Hf : forward_wht hbd stride input =
     Some (map (fun i => 4 * rpass (cpass X) (i mod 4) (i / 4)) idx16)).
  { rewrite (forward_eq (2 ^ bd - 1) hbd stride input X).
    - f_equal. apply map_ext_in. intros i Hi. apply in16 in Hi.
      apply Hc4; apply in4'; dlia.
    - intros r c Hr Hc. apply in4' in Hr. apply in4' in Hc.
      destruct (Hin r c (conj Hr Hc)) as [H0 H1]. unfold wnth.
      replace (r * stride + c <? 0) with false by lia. exact H1.
    - exact HX.
    - lia. }
  exists (map (fun i => 4 * rpass (cpass X) (i mod 4) (i / 4)) idx16).
  exists (map (fun i => wclamp (pred (i / 4) (i mod 4) + X (i / 4) (i mod 4))
                               0 (2 ^ bd - 1)) idx16).
  assert (Hv : forall r c, in_block r c ->
    wclamp (pred r c + X r c) 0 (2 ^ bd - 1) = src r c).
  { intros r c Hb. specialize (Hs r c Hb). unfold wclamp, X.
    replace (pred r c + (src r c - pred r c)) with (src r c) by ring.
    replace (src r c <? 0) with false by lia.
    replace (2 ^ bd - 1 <? src r c) with false by lia. reflexivity. }
  split; [exact Hf|]. split; [|split; [|split]].
  - apply (inverse_eq (2 ^ bd - 1)); try lia; try assumption.
    + intros i Hi. apply in16 in Hi.
      assert (Hb : in_block (i / 4) (i mod 4)) by (unfold in_block; dlia).
      destruct (Hpx _ _ Hb) as [H0 H1]. unfold wnth.
      replace (i <? 0) with false by lia.
      replace (i / 4 * 4 + i mod 4) with i in H1 by dlia. exact H1.
    + intros r c Hr Hc. apply in4' in Hr. apply in4' in Hc.
      specialize (Hp r c (conj Hr Hc)). lia.
  - rewrite map_length. reflexivity.
  - intros r c Hb. split; [unfold in_block in Hb; lia|].
    pose proof (wnth16 (fun i => wclamp
      (pred (i / 4) (i mod 4) + X (i / 4) (i mod 4)) 0 (2 ^ bd - 1))
      (r * 4 + c)) as W.
    unfold wnth in W. unfold in_block in Hb.
    replace (r * 4 + c <? 0) with false in W by lia.
    rewrite W by (apply in16; lia).
    replace ((r * 4 + c) / 4) with r by dlia.
    replace ((r * 4 + c) mod 4) with c by dlia.
    f_equal. apply Hv. exact Hb.
  - intros r c Hb. unfold spec_recon.
    rewrite (spec_residual_eq X).
    + specialize (Hs r c Hb). unfold spec_clip1, X.
      replace (pred r c + (src r c - pred r c)) with (src r c) by ring.
      replace (src r c <? 0) with false by lia.
      replace (src r c >? 2 ^ bd - 1) with false by lia. reflexivity.
    + intros r' c' Hr Hc. apply in4' in Hr. apply in4' in Hc.
      pose proof (wnth16 (fun i => 4 * rpass (cpass X) (i mod 4) (i / 4))
        (4 * c' + r')) as W.
      unfold wnth in W.
      replace (4 * c' + r' <? 0) with false in W by lia.
      specialize (W ltac:(apply in16; lia)).
      apply (nth_error_nth _ _ 0) in W. rewrite W.
      replace ((4 * c' + r') mod 4) with r' by dlia.
      replace ((4 * c' + r') / 4) with c' by dlia. reflexivity.
    + apply in4'. unfold in_block in Hb. lia.
    + apply in4'. unfold in_block in Hb. lia.
Qed.

Definition fits (B : Z) (l : list Z) : Prop :=
  length l = 4%nat /\ Forall (fun x => - B <= x <= B) l.

(** The two one-dimensional transforms are inverse to each other in both
    directions on all four-element vectors whose values leave room in i32. *)
Theorem C34_butterflies : forall x,
  fits 50000000 x ->
  (exists q, fwht4 x = Some q /\ iwht4 q = Some x) /\
  (exists y, iwht4 x = Some y /\ fwht4 y = Some x).
Proof.
  intros x [HL HF].
  destruct x as [|x0 [|x1 [|x2 [|x3 [|]]]]]; try discriminate HL.
  pose proof (Forall_inv HF) as H0. apply Forall_inv_tail in HF.
  pose proof (Forall_inv HF) as H1. apply Forall_inv_tail in HF.
  pose proof (Forall_inv HF) as H2. apply Forall_inv_tail in HF.
  pose proof (Forall_inv HF) as H3. clear HF HL. cbv beta in *.
  split.
  - exists [f0 x0 x1 x2 x3; f1 x0 x1 x2 x3; f2 x0 x1 x2 x3; f3 x0 x1 x2 x3].
    split; [apply (fwht4_eq 50000000); lia|].
    pose proof (f_bounds _ _ _ _ _ H0 H1 H2 H3) as (B0 & B1 & B2 & B3).
    rewrite (iwht4_eq (2 * 50000000)); try lia.
    pose proof (gf x0 x1 x2 x3) as (E0 & E1 & E2 & E3). cbv zeta in *.
    rewrite E0, E1, E2, E3. reflexivity.
  - exists [g0 x0 x1 x2 x3; g1 x0 x1 x2 x3; g2 x0 x1 x2 x3; g3 x0 x1 x2 x3].
    split; [apply (iwht4_eq 50000000); lia|].
    pose proof (fg x0 x1 x2 x3) as (E0 & E1 & E2 & E3). cbv zeta in *.
    rewrite (fwht4_eq (2 * 50000000)); [rewrite E0, E1, E2, E3; reflexivity|..];
      unfold g0, g3, g1, g2;
      pose proof (Z.div_mod (x0 + x1 - (x2 - x3)) 2 ltac:(discriminate));
      pose proof (Z.mod_pos_bound (x0 + x1 - (x2 - x3)) 2 ltac:(lia)); lia.
Qed.

Print Assumptions C34_lossless.
Print Assumptions C34_butterflies.

(** A block with extreme residuals, in a buffer of stride 6. *)
Definition ex_src (r c : Z) : Z := if (r + c) mod 2 =? 0 then 255 else 17 * r.
Definition ex_pred (r c : Z) : Z := if r =? c then 0 else 200 - 20 * c.
Definition ex_input : list Z :=
  map (fun i => if i mod 6 <? 4
                then ex_src (i / 6) (i mod 6) - ex_pred (i / 6) (i mod 6)
                else 99) (map Z.of_nat (seq 0 24)).
Definition ex_pixels : list Z :=
  map (fun i => ex_pred (i / 4) (i mod 4)) (map Z.of_nat (seq 0 16)).

Lemma block16 (P : Z -> Z -> Prop) :
  P 0 0 -> P 0 1 -> P 0 2 -> P 0 3 -> P 1 0 -> P 1 1 -> P 1 2 -> P 1 3 ->
  P 2 0 -> P 2 1 -> P 2 2 -> P 2 3 -> P 3 0 -> P 3 1 -> P 3 2 -> P 3 3 ->
  forall r c, in_block r c -> P r c.
Proof.
  intros. destruct H15 as [Hr Hc].
  assert (r = 0 \/ r = 1 \/ r = 2 \/ r = 3) as [->|[->|[->| ->]]] by lia;
  assert (c = 0 \/ c = 1 \/ c = 2 \/ c = 3) as [->|[->|[->| ->]]] by lia;
  assumption.
Qed.

Example C34_example :
  pixels_ok 8 ex_src /\ pixels_ok 8 ex_pred /\
  holds ex_input 6 (fun r c => ex_src r c - ex_pred r c) /\
  holds ex_pixels 4 ex_pred /\
  exists coeffs,
    forward_wht false 6 ex_input = Some coeffs /\ nth 0 coeffs 0 = 204 /\
    inverse_wht_add 8 coeffs ex_pixels =
      Some (map (fun i => ex_src (i / 4) (i mod 4)) (map Z.of_nat (seq 0 16))).
Proof.
  split; [unfold pixels_ok; apply block16; vm_compute; split; congruence|].
  split; [unfold pixels_ok; apply block16; vm_compute; split; congruence|].
  split; [unfold holds; apply block16; vm_compute; split; congruence|].
  split; [unfold holds; apply block16; vm_compute; split; congruence|].
  eexists. split; [vm_compute; reflexivity|].
  split; vm_compute; reflexivity.
Qed.

Example C34_butterfly_example :
  fits 50000000 [1; -5; 49999999; -50000000] /\
  fwht4 [1; -5; 49999999; -50000000] = Some [-2; -2; -49999997; 50000002].
Proof.
  split; [|vm_compute; reflexivity].
  split; [reflexivity|]. repeat (apply Forall_cons; [lia|]). apply Forall_nil.
Qed.
