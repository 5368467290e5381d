(** C54: the directional enhancement filter is the decoder's; C41, this filter. *)
From Verif Require Import Base Cdef_model Cdef_dir Cdef_filter Cdef_frame.
From Verif Require Cdef_spec.
Local Open Scope Z_scope.

(** The situation in which the encoder calls the filter: [frame_ok] lists chroma format,
    size in blocks of 8x8 pixels, shape of the planes and of the array of blocks, bit depth,
    damping at most 6, strengths of six bits, and pixels within the bit depth. *)
Definition spec_frame (fi : frame_inv) (input : Z -> plane) (b : tile_blocks) (wb hb sx sy : Z) : Z -> Z -> Z -> Z :=
  Cdef_spec.CdefFrame (f_bit_depth fi) (2 * hb) (2 * wb) sx sy (fun p y x => px (input p) y x) (b_skip b)
    (fun r c => b_cdef b (r / 16 * 16) (c / 16 * 16)) (f_damping fi)
    (fun i => f_y_str fi i / 4) (fun i => Cdef_spec.sec_strength_of_syntax (f_y_str fi i mod 4))
    (fun i => f_uv_str fi i / 4) (fun i => Cdef_spec.sec_strength_of_syntax (f_uv_str fi i mod 4)).

Lemma reg_inside wb hb sx sy fi input b rw rh p y x : frame_ok fi input b wb hb sx sy rw rh ->
  0 <= p < f_planes fi ->
  reg fi sx sy p y x 0 hb 0 wb =
  (0 <=? y) && (y <? p_height (input p)) && (0 <=? x) && (x <? p_width (input p)).
Proof.
  intros K Hp. destruct (k_geom _ _ _ _ _ _ _ _ _ K p Hp) as (_ & _ & Ew & Eh).
  pose proof (dxy _ _ _ _ _ _ _ _ _ K p) as D. rewrite Ew, Eh. unfold reg, Y8, X8.
  replace (0 <=? p) with true by lia. replace (p <? f_planes fi) with true by lia. cbn [andb].
  assert (L : forall d n t, d = 0 \/ d = 1 ->
    (0 <=? t * 2 ^ d / 8) && (t * 2 ^ d / 8 <? n) = (0 <=? t) && (t <? 8 * n / 2 ^ d)).
  { clear. intros d n t [-> | ->]; [change (2 ^ 0) with 1|change (2 ^ 1) with 2].
    - rewrite Z.div_1_r. destruct (0 <=? t) eqn:A, (t <? 8 * n) eqn:B; dlia.
    - replace (8 * n / 2) with (4 * n) by dlia. destruct (0 <=? t) eqn:A, (t <? 4 * n) eqn:B; dlia. }
  destruct D as [Dx Dy]. pose proof (L _ hb y Dy) as L1. pose proof (L _ wb x Dx) as L2.
  rewrite <- !andb_assoc in *. rewrite andb_assoc, L1, L2. now rewrite <- !andb_assoc.
Qed.

(** C54.  For every such frame the filter ends without a panic (none of its asserts fails,
    no index is out of bounds) and writes, at every sample of every plane, the value the
    AV1 specification gives; it writes nothing else.  The result does not depend on what
    lies in memory beside the scratch block ([junk]). *)
Theorem C54_cdef_is_decoder fi junk input b wb hb sx sy rw rh out :
  frame_ok fi input b wb hb sx sy rw rh ->
  exists out', cdef_filter_tile fi junk input b 0 0 rw rh out = Some out' /\
    (forall p y x, 0 <= p < f_planes fi -> 0 <= y < p_height (input p) -> 0 <= x < p_width (input p) ->
       out' p y x = spec_frame fi input b wb hb sx sy p y x) /\
    (forall p y x, ~ (0 <= p < f_planes fi /\ 0 <= y < p_height (input p) /\ 0 <= x < p_width (input p)) ->
       out' p y x = out p y x).
Proof.
  intros K. destruct (tile_spec fi junk input b wb hb sx sy rw rh K out) as (out' & E & W).
  exists out'. split; [exact E|]. split; intros p y x.
  - intros Hp Hy Hx. rewrite (W p y x), (reg_inside _ _ _ _ _ _ _ _ _ _ _ _ K Hp).
    replace ((0 <=? y) && (y <? p_height (input p)) && (0 <=? x) && (x <? p_width (input p))) with true by lia.
    reflexivity.
  - intros N. rewrite (W p y x).
    assert (D : 0 <= p < f_planes fi \/ ~ (0 <= p < f_planes fi)) by lia. destruct D as [Hp|Hp].
    + rewrite (reg_inside _ _ _ _ _ _ _ _ _ _ _ _ K Hp).
      replace ((0 <=? y) && (y <? p_height (input p)) && (0 <=? x) && (x <? p_width (input p))) with false by lia.
      reflexivity.
    + unfold reg. replace ((0 <=? p) && (p <? f_planes fi)) with false by lia. reflexivity.
Qed.
Print Assumptions C54_cdef_is_decoder.

(** The direction search on its own: direction and variance of the specification; and the
    costs, added up in i32 by the code, are below 2^30, the variance below 2^20. *)
Theorem C54_direction img coeff_shift :
  0 <= coeff_shift -> image_ok img coeff_shift ->
  let s i j := img i j / 2 ^ coeff_shift - 128 in
  cdef_find_dir img coeff_shift = (Cdef_spec.yDir s, Cdef_spec.var s) /\
  (forall d, 0 <= d < 8 -> 0 <= costs (partials img coeff_shift) d < 2 ^ 30) /\
  0 <= Cdef_spec.yDir s < 8 /\ 0 <= Cdef_spec.var s < 2 ^ 20.
Proof.
  intros Hc H s. pose proof (find_dir_spec img coeff_shift Hc H) as E.
  assert (S : forall i j, 0 <= i < 8 -> 0 <= j < 8 -> Z.abs (s i j) <= 128)
    by (intros; apply (sample_bound img coeff_shift); assumption).
  split; [exact E|]. split; [|split].
  - intros d Hd. rewrite (costs_spec (partials img coeff_shift) (sample img coeff_shift)) by (exact Hd || (apply partials_spec; assumption)).
    pose proof (cost_bound s d S Hd). change (sample img coeff_shift) with s. change (2 ^ 30) with 1073741824. lia.
  - apply best_in.
  - pose proof (var_range s S). change (2 ^ 20) with 1048576. lia.
Qed.
Print Assumptions C54_direction.

(** Whatever the strengths, a filtered sample lies between the least and the greatest of
    the samples at most two rows and two columns away. *)
Theorem C41_cdef_between fi junk input b wb hb sx sy rw rh out out' p y x lo hi :
  frame_ok fi input b wb hb sx sy rw rh ->
  cdef_filter_tile fi junk input b 0 0 rw rh out = Some out' ->
  0 <= p < f_planes fi -> 0 <= y < p_height (input p) -> 0 <= x < p_width (input p) ->
  (forall y' x', 0 <= y' < p_height (input p) -> 0 <= x' < p_width (input p) ->
     Z.abs (y' - y) <= 2 -> Z.abs (x' - x) <= 2 -> lo <= px (input p) y' x' <= hi) ->
  lo <= out' p y x <= hi.
Proof.
  intros K E Hp Hy Hx B.
  destruct (C54_cdef_is_decoder fi junk input b wb hb sx sy rw rh out K) as (o & E' & In & _).
  rewrite E in E'. injection E' as <-. rewrite (In p y x Hp Hy Hx). clear In E.
  assert (V : lo <= px (input p) y x <= hi) by (apply B; lia).
  assert (G : forall pri sec damping dir, 0 <= dir < 8 ->
    lo <= Cdef_spec.cdef_filter (f_bit_depth fi) (2 * hb) (2 * wb) sx sy (fun p y x => px (input p) y x) p pri sec damping dir y x <= hi).
  { intros pri sec damping dir Hd. rewrite cdef_filter_taps. apply out_between; [exact V|].
    rewrite (spec_taps_ext _ (fun dy dx => if (Z.abs dy <=? 2) && (Z.abs dx <=? 2)
        then Cdef_spec.cdef_get_at (2 * hb) (2 * wb) sx sy (fun p y x => px (input p) y x) p (y + dy) (x + dx) else None)).
    2: exact Hd.
    2: { intros dy dx H1 H2. replace (Z.abs dy <=? 2) with true by lia. replace (Z.abs dx <=? 2) with true by lia. reflexivity. }
    apply Forall_forall. intros [w q] Hin. unfold avail in Hin. apply in_flat_map in Hin.
    destruct Hin as ([[w0 str] o0] & Hin & Hq). destruct o0 as [q'|]; [|destruct Hq].
    assert (Eq : q' = q) by (destruct Hq as [Hq|[]]; congruence). subst q'. clear Hq. cbn [snd].
    assert (A : exists dy dx, (if (Z.abs dy <=? 2) && (Z.abs dx <=? 2)
        then Cdef_spec.cdef_get_at (2 * hb) (2 * wb) sx sy (fun p y x => px (input p) y x) p (y + dy) (x + dx) else None) = Some q).
    { unfold spec_taps in Hin. unfold at_ in Hin.
      repeat (cbn [flat_map map app In] in Hin; rewrite ?in_app_iff in Hin;
              match type of Hin with _ \/ _ => destruct Hin as [Hin|Hin]; [try (injection Hin as _ _ Hin; eauto)|] end);
      try destruct Hin. }
    destruct A as (dy & dx & A). destruct ((Z.abs dy <=? 2) && (Z.abs dx <=? 2)) eqn:R; [|discriminate].
    unfold Cdef_spec.cdef_get_at in A. cbv zeta in A.
    destruct ((0 <=? _) && _ && _ && _) eqn:I in A; [|discriminate]. injection A as <-.
    destruct (k_geom _ _ _ _ _ _ _ _ _ K p Hp) as (_ & _ & Ew & Eh). pose proof (dxy _ _ _ _ _ _ _ _ _ K p) as [Dx Dy].
    unfold Cdef_spec.subX, Cdef_spec.subY in I. fold (dx_of sx p) (dy_of sy p) in I.
    assert (L : forall d n t, d = 0 \/ d = 1 -> 0 <= t * 2 ^ d / 4 < 2 * n -> 0 <= t < 8 * n / 2 ^ d).
    { clear. intros d n t [-> | ->]; [change (2 ^ 0) with 1|change (2 ^ 1) with 2]; intros; dlia. }
    apply B; try (clear - R; lia).
    - rewrite Eh. apply L; [exact Dy|]. clear - I. lia.
    - rewrite Ew. apply L; [exact Dx|]. clear - I. lia. }
  assert (Hdir : forall s, 0 <= Cdef_spec.yDir s < 8) by (intros; apply best_in).
  unfold spec_frame, Cdef_spec.CdefFrame. cbv zeta.
  destruct (_ && _); [exact V|]. destruct (p =? 0) eqn:P0.
  - apply Z.eqb_eq in P0.
    assert (G0 := fun a b c d e => eq_ind p (fun q => lo <= Cdef_spec.cdef_filter (f_bit_depth fi) (2 * hb) (2 * wb) sx sy
      (fun p y x => px (input p) y x) q a b c d y x <= hi) (G a b c d e) 0 P0). apply G0. destruct (_ =? 0); [lia|apply Hdir].
  - apply G. match goal with |- 0 <= (if ?c then _ else _) < 8 => destruct c end; [lia|].
    match goal with |- context [Cdef_spec.yDir ?s] => pose proof (Hdir s) as D; set (d := Cdef_spec.yDir s) in * end.
    clearbody d. pose proof (k_sub _ _ _ _ _ _ _ _ _ K) as S.
    apply dir_cases in D. destruct S as [[-> ->]|[[-> ->]|[-> ->]]];
      destruct D as [->|[->|[->|[->|[->|[->|[->| ->]]]]]]]; split; (reflexivity || (vm_compute; intro; discriminate)).
Qed.
Print Assumptions C41_cdef_between.

(** C41, this filter: pixels stay within the bit depth, flat areas are unchanged *)
Theorem C41_cdef_range fi junk input b wb hb sx sy rw rh out out' p y x :
  frame_ok fi input b wb hb sx sy rw rh ->
  cdef_filter_tile fi junk input b 0 0 rw rh out = Some out' ->
  0 <= p < f_planes fi -> 0 <= y < p_height (input p) -> 0 <= x < p_width (input p) ->
  0 <= out' p y x < 2 ^ f_bit_depth fi.
Proof.
  intros K E Hp Hy Hx. enough (0 <= out' p y x <= 2 ^ f_bit_depth fi - 1) by lia.
  eapply C41_cdef_between; eauto. intros y' x' Y X _ _. pose proof (k_px _ _ _ _ _ _ _ _ _ K p y' x' Hp Y X). lia.
Qed.
Print Assumptions C41_cdef_range.

Theorem C41_cdef_flat fi junk input b wb hb sx sy rw rh out out' p y x v :
  frame_ok fi input b wb hb sx sy rw rh ->
  cdef_filter_tile fi junk input b 0 0 rw rh out = Some out' ->
  0 <= p < f_planes fi -> 0 <= y < p_height (input p) -> 0 <= x < p_width (input p) ->
  (forall y' x', 0 <= y' < p_height (input p) -> 0 <= x' < p_width (input p) ->
     Z.abs (y' - y) <= 2 -> Z.abs (x' - x) <= 2 -> px (input p) y' x' = v) ->
  out' p y x = v.
Proof.
  intros K E Hp Hy Hx B. enough (v <= out' p y x <= v) by lia.
  eapply C41_cdef_between; eauto. intros y' x' Y X H1 H2. rewrite (B y' x' Y X H1 H2). lia.
Qed.
Print Assumptions C41_cdef_flat.

(** The scratch block: 144 elements are enough; nothing outside is written. *)
Theorem C54_scratch_in_bounds tmp src s0 ss xdec ydec edges a :
  xdec = 0 \/ xdec = 1 -> ydec = 0 \/ ydec = 1 ->
  let bw := 8 / 2 ^ xdec in let bh := 8 / 2 ^ ydec in
  ~ (0 <= a < 144) -> pad_into_tmp16 tmp 0 (bw + 4) src s0 ss bw bh edges a = tmp a.
Proof.
  intros X Y bw bh A. assert (bw = 8 \/ bw = 4) by (destruct X as [-> | ->]; [left|right]; reflexivity).
  assert (bh = 8 \/ bh = 4) by (destruct Y as [-> | ->]; [left|right]; reflexivity).
  clearbody bw bh. apply pad_outside; lia.
Qed.
Print Assumptions C54_scratch_in_bounds.

(** Not vacuous: a frame of 24x16 pixels, 4:2:0, with a noisy slanted edge; one skipped block. *)
Definition c54_plane (p : Z) : plane :=
  let w := if p =? 0 then 24 else 12 in
  {| p_width := w; p_height := if p =? 0 then 16 else 8; p_xdec := if p =? 0 then 0 else 1; p_ydec := if p =? 0 then 0 else 1;
     p_stride := w; p_mem := fun a => (if a mod w + a / w <? 14 then 100 else 120) + (a * a * 7) mod 5 |}.
Definition c54_fi : frame_inv :=
  {| f_bit_depth := 8; f_damping := 4; f_y_str := fun _ => 4 * 5 + 3; f_uv_str := fun _ => 4 * 3 + 1; f_planes := 3 |}.
Definition c54_blocks : tile_blocks := {| b_rows := 4; b_cols := 6; b_skip := fun r c => 4 <=? c; b_cdef := fun _ _ => 0 |}.
Example c54_ok : frame_ok c54_fi c54_plane c54_blocks 3 2 1 1 24 16.
Proof.
  constructor; cbn [f_planes f_bit_depth f_damping f_y_str f_uv_str c54_fi]; try (cbn; lia).
  - intros p Hp. assert (p = 0 \/ p = 1 \/ p = 2) as [->|[->| ->]] by lia; repeat split.
  - intros p y x Hp _ _. unfold px, c54_plane. cbn [p_mem p_stride].
    set (a := y * _ + x). clearbody a. set (w := if p =? 0 then 24 else 12).
    pose proof (Z.mod_pos_bound (a * a * 7) 5 ltac:(lia)). change (2 ^ 8) with 256. destruct (_ <? 14); lia.
Qed.
Example c54_changes :
  match cdef_filter_tile c54_fi (fun _ => 77) c54_plane c54_blocks 0 0 24 16 (fun _ _ _ => 0) with
  | Some o => (map (o 0 3) [8; 9; 10; 11; 12; 20], map (fun x => px (c54_plane 0) 3 x) [8; 9; 10; 11; 12; 20],
               map (o 1 6) [4; 5; 6; 7], map (fun x => px (c54_plane 1) 6 x) [4; 5; 6; 7])
  | None => ([], [], [], []) end =
  ([103; 102; 102; 122; 122; 123], [100; 102; 103; 123; 122; 123], [102; 102; 102; 102], [102; 103; 103; 102]).
Proof. vm_compute. reflexivity. Qed.
