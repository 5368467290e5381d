(** What each reference slot holds, in the encoder's buffer and in a decoder's. *)
From Verif Require Import Base SMap Sched_model Sched_plan Sched_inv Sched_shape Sched_step Sched_recv Sched_spec.

(** Order hint in slot [r] before position [rx] of group [g] of a reordered GOP
    of [len] frames, and whether it may still be shown. *)
Definition Hs (len g rx r : Z) : Z :=
  let m := if (1 <=? rx) && (4 * g + 4 <? len) then g + 1 else g in
  if r <? 4 then 4 * Z.max 0 (m - (m - r) mod 4)
  else if r =? 4 then (if (2 <=? rx) && (4 * g + 2 <? len) then 4 * g + 2 else Z.max 0 (4 * g - 2))
  else if r =? 5 then (if (5 <=? rx) && (4 * g + 3 <? len) then 4 * g + 3
                       else if 3 <=? rx then 4 * g + 1 else Z.max 0 (4 * g - 1))
  else 0.
Definition Ws (len g rx r : Z) : bool :=
  ((r =? (g + 1) mod 4) && (1 <=? rx) && (4 * g + 4 <? len)) ||
  ((r =? 4) && (2 <=? rx) && (rx <=? 3) && (4 * g + 2 <? len)).

(** The frame at position [rx]: its order hint, slot, and whether it is a
    show-existing frame. *)
Definition fh (g rx : Z) : Z :=
  match rx with 0 => 4 * g + 4 | 1 => 4 * g + 2 | 2 => 4 * g + 1 | 3 => 4 * g + 2 | 4 => 4 * g + 3 | _ => 4 * g + 4 end.
Definition fslot (g rx : Z) : Z :=
  match rx with 0 => (g + 1) mod 4 | 1 => 4 | 2 => 5 | 3 => 4 | 4 => 5 | _ => (g + 1) mod 4 end.
Definition fsef (rx : Z) : bool := match rx with 3 | 5 => true | _ => false end.
Definition fshow (rx : Z) : bool := 2 <=? rx.
Definition nextp (g rx : Z) : Z * Z := if rx =? 5 then (g + 1, 0) else (g, rx + 1).

Ltac bcase := repeat match goal with
  | |- context [?a <? ?b] => destruct (Z.ltb_spec a b)
  | |- context [?a <=? ?b] => destruct (Z.leb_spec a b)
  | |- context [?a =? ?b] => destruct (Z.eqb_spec a b)
  end; cbn [andb orb negb]; try reflexivity; try lia.

Lemma slots_step len g rx r : 0 <= g -> 0 <= rx <= 5 -> 0 <= r < 8 -> 4 * g + 1 < len ->
  (rx = 5 -> 4 * (g + 1) + 1 < len) ->
  let h := Hs len g rx r in let w := Ws len g rx r in
  let '(g', rx') := nextp g rx in
  Hs len g' rx' r = (if (fh g rx <? len) && negb (fsef rx) && (r =? fslot g rx) then fh g rx else h) /\
  Ws len g' rx' r = (if (fh g rx <? len) && (r =? fslot g rx) then (if fsef rx then false else negb (fshow rx)) else w).
Proof.
  intros Hg Hrx Hr Hlen H5. cbn zeta.
  assert (R : rx = 0 \/ rx = 1 \/ rx = 2 \/ rx = 3 \/ rx = 4 \/ rx = 5) by lia.
  assert (M : 0 <= (g + 1) mod 4 < 4) by (apply Z.mod_pos_bound; lia).
  destruct R as [->|[->|[->|[->|[->| ->]]]]]; unfold nextp; cbn [Z.eqb];
  [change (0 + 1) with 1|change (1 + 1) with 2|change (2 + 1) with 3|change (3 + 1) with 4|change (4 + 1) with 5|];
  unfold Hs, Ws, fh, fslot, fsef, fshow;
  repeat match goal with
  | |- context [Z.leb (Z.pos ?a) (Z.pos ?b)] => let v := eval compute in (Z.leb (Z.pos a) (Z.pos b)) in change (Z.leb (Z.pos a) (Z.pos b)) with v
  | |- context [Z.leb (Z.pos ?a) 0] => change (Z.leb (Z.pos a) 0) with false
  end; cbn [andb orb negb]; rewrite ?andb_true_r, ?andb_false_r, ?orb_false_r; cbn [andb orb negb].
  - split; [|bcase]. destruct (Z.ltb_spec r 4).
    + destruct (Z.ltb_spec (4 * g + 4) len); cbn [andb]; [|reflexivity]. destruct (Z.eqb_spec r ((g + 1) mod 4)) as [->|Hne]; dlia.
    + destruct (Z.eqb_spec r ((g + 1) mod 4)); [lia|]. rewrite ?andb_false_r. bcase.
  - split; bcase.
  - split; bcase.
  - split; bcase.
  - split; bcase.
  - specialize (H5 eq_refl). destruct (Z.ltb_spec (4 * g + 4) len); [|lia]. cbn [andb].
    destruct (Z.ltb_spec (4 * g + 3) len); [|lia]. destruct (Z.ltb_spec (4 * g + 2) len); [|lia].
    split; bcase.
Qed.

(** The references of a frame are within 16 of it in display order. *)
Definition frefs (g rx : Z) : list Z :=
  let b := g mod 4 in let n := (g + 1) mod 4 in
  match rx with
  | 0 => [b; (g + 3) mod 4; b; b; b; b; b]
  | 1 => [b; b; 4; b; b; b; n]
  | 2 => [b; b; 5; b; b; b; 4]
  | 3 => [b; b; 4; b; b; b; n]
  | 4 => [4; 4; 5; 4; 4; 4; n]
  | _ => [b; b; b; b; b; b; (g + 3) mod 4]
  end.
Lemma refs_close len g rx : 0 <= g -> 0 <= rx <= 5 -> fh g rx < len ->
  Forall (fun r => 0 <= Hs len g rx r /\ Z.abs (fh g rx - Hs len g rx r) <= 16) (frefs g rx).
Proof.
  intros Hg Hrx Hlen.
  assert (R : rx = 0 \/ rx = 1 \/ rx = 2 \/ rx = 3 \/ rx = 4 \/ rx = 5) by lia.
  assert (Mb : 0 <= g mod 4 < 4) by (apply Z.mod_pos_bound; lia).
  assert (Mn : 0 <= (g + 1) mod 4 < 4) by (apply Z.mod_pos_bound; lia).
  assert (M3 : 0 <= (g + 3) mod 4 < 4) by (apply Z.mod_pos_bound; lia).
  assert (Low : forall r, 0 <= r < 4 -> 0 <= Hs len g rx r /\ 4 * g - 12 <= Hs len g rx r <= 4 * g + 4).
  { intros r Hr. unfold Hs. destruct (Z.ltb_spec r 4); [|lia].
    destruct ((1 <=? rx) && (4 * g + 4 <? len)); dlia. }
  assert (Mid : 0 <= Hs len g rx 4 /\ 4 * g - 2 <= Hs len g rx 4 <= 4 * g + 2).
  { unfold Hs. change (4 <? 4) with false. change (4 =? 4) with true. cbn iota.
    destruct ((2 <=? rx) && (4 * g + 2 <? len)); lia. }
  assert (Top : 0 <= Hs len g rx 5 /\ 4 * g - 1 <= Hs len g rx 5 <= 4 * g + 3).
  { unfold Hs. change (5 <? 4) with false. change (5 =? 4) with false. change (5 =? 5) with true. cbn iota.
    destruct ((5 <=? rx) && (4 * g + 3 <? len)); [lia|]. destruct (3 <=? rx); lia. }
  pose proof (Low _ Mb). pose proof (Low _ Mn). pose proof (Low _ M3).
  destruct R as [->|[->|[->|[->|[->| ->]]]]]; clear Low; unfold frefs, fh in *; cbv zeta; repeat constructor; lia.
Qed.

(** A coded frame is not its own reference, and a show-existing frame finds its
    picture. *)
Lemma refs_other len g rx r : 0 <= g -> 0 <= rx <= 5 -> fh g rx < len -> fsef rx = false -> In r (frefs g rx) ->
  Hs len g rx r <> fh g rx.
Proof.
  intros Hg Hrx Hlen Hsf Hin.
  assert (R : rx = 0 \/ rx = 1 \/ rx = 2 \/ rx = 3 \/ rx = 4 \/ rx = 5) by lia.
  assert (Mb : 0 <= g mod 4 < 4) by (apply Z.mod_pos_bound; lia).
  assert (Mn : 0 <= (g + 1) mod 4 < 4) by (apply Z.mod_pos_bound; lia).
  assert (M3 : 0 <= (g + 3) mod 4 < 4) by (apply Z.mod_pos_bound; lia).
  destruct R as [->|[->|[->|[->|[->| ->]]]]]; try discriminate Hsf; unfold fh, frefs in *; cbv zeta in Hin; cbn [In] in Hin.
  - unfold Hs. change (1 <=? 0) with false. cbn [andb]. assert (0 <= r < 4) by lia.
    assert (0 <= (g - r) mod 4) by (apply Z.mod_pos_bound; lia). destruct (Z.ltb_spec r 4); lia.
  - unfold Hs. change (1 <=? 1) with true. change (2 <=? 1) with false. cbn [andb].
    destruct (Z.ltb_spec r 4) as [H|H].
    + lia.
    + assert (r = 4) by lia. subst r. change (4 =? 4) with true. cbn iota. lia.
  - unfold Hs. change (1 <=? 2) with true. change (2 <=? 2) with true. change (5 <=? 2) with false. change (3 <=? 2) with false. cbn [andb].
    destruct (Z.ltb_spec r 4) as [H|H]; [lia|].
    assert (r = 4 \/ r = 5) as [->| ->] by lia; cbn [Z.eqb Pos.eqb].
    + destruct (Z.ltb_spec (4 * g + 2) len); lia.
    + lia.
  - unfold Hs. change (1 <=? 4) with true. change (2 <=? 4) with true. change (5 <=? 4) with false. change (3 <=? 4) with true. cbn [andb].
    destruct (Z.ltb_spec r 4) as [H|H]; [lia|].
    assert (r = 4 \/ r = 5) as [->| ->] by lia; cbn [Z.eqb Pos.eqb].
    + destruct (Z.ltb_spec (4 * g + 2) len); lia.
    + lia.
Qed.
Lemma sef_slot len g rx : 0 <= g -> 0 <= rx <= 5 -> fh g rx < len -> fsef rx = true ->
  Hs len g rx (fslot g rx) = fh g rx /\ Ws len g rx (fslot g rx) = true.
Proof.
  intros Hg Hrx Hlen Hsf.
  assert (R : rx = 3 \/ rx = 5).
  { assert (R : rx = 0 \/ rx = 1 \/ rx = 2 \/ rx = 3 \/ rx = 4 \/ rx = 5) by lia.
    destruct R as [->|[->|[->|[->|[->| ->]]]]]; try discriminate Hsf; auto. }
  assert (Mn : 0 <= (g + 1) mod 4 < 4) by (apply Z.mod_pos_bound; lia).
  destruct R as [->| ->]; unfold fh, fslot, Hs, Ws in *.
  - change (2 <=? 3) with true. change (3 <=? 3) with true. change (4 <? 4) with false. change (4 =? 4) with true. cbn [andb].
    destruct (Z.ltb_spec (4 * g + 2) len); [|lia]. split; [reflexivity|]. rewrite orb_true_r. reflexivity.
  - change (1 <=? 5) with true. cbn [andb]. destruct (Z.ltb_spec (4 * g + 4) len); [|lia]. rewrite Z.eqb_refl.
    split; [|reflexivity]. destruct (Z.ltb_spec ((g + 1) mod 4) 4); [|lia].
    assert (E : (g + 1 - (g + 1) mod 4) mod 4 = 0).
    { rewrite Zminus_mod_idemp_r, Z.sub_diag. reflexivity. }
    rewrite E. lia.
Qed.
