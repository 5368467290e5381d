(** C38 and C39: segment identifiers and motion vectors are read back by the
    AV1 syntax. *)
From Verif Require Import Sym Mv_model Mv_spec Mv_proof Seg_model Seg_spec Seg_proof.
Open Scope string_scope.
Open Scope Z_scope.
Open Scope list_scope.

(** ** C39 *)

(** Motion vectors in units of 1/8 pel.  [unit_of]: what the precision can
    express, 1, 2 (no high precision bit) or 8 (integer motion vectors). *)
Theorem C39_motion_vectors : forall (fi hp : bool) (mv pred : Z * Z) (rest : list ev),
  (fi = true -> hp = false) ->
  - 16384 < fst mv < 16384 -> - 16384 < snd mv < 16384 ->
  - 16384 <= fst mv - fst pred <= 16384 -> - 16384 <= snd mv - snd pred <= 16384 ->
  (unit_of fi hp | fst mv - fst pred) -> (unit_of fi hp | snd mv - snd pred) ->
  exists l, write_mv mv pred (prec_of fi hp) = Some l /\
    read_mv fi hp pred (l ++ rest) = Some (mv, rest).
Proof.
  intros fi hp [r c] [pr pc] rest Hfh Hr Hc Hdr Hdc Ur Uc. cbn [fst snd] in *.
  assert (R : reads (read_mv fi hp (pr, pc)) (write_mv (r, c) (pr, pc) (prec_of fi hp)) (r, c)).
  { unfold write_mv. cbn [fst snd].
    replace (mv_is_valid r c) with true
      by (unfold mv_is_valid; change MV_LOW with (-16384); change MV_UPP with 16384; lia).
    cbn [wguard]. unfold i16c.
    replace ((-32768 <=? r - pr) && (r - pr <=? 32767))%bool with true by lia.
    replace ((-32768 <=? c - pc) && (c - pc <=? 32767))%bool with true by lia.
    cbv zeta. unfold read_mv.
    set (j := get_mv_joint (r - pr) (c - pc)).
    assert (Hj : 0 <= j < 4 /\
      ((j =? 2) || (j =? 3))%bool = negb (r - pr =? 0) /\
      ((j =? 1) || (j =? 3))%bool = negb (c - pc =? 0)).
    { unfold j, get_mv_joint. destruct (r - pr =? 0), (c - pc =? 0); cbn; lia. }
    clearbody j. destruct Hj as [Hj [Jv Jh]].
    eapply reads_bind; [apply reads_sym; exact Hj|].
    unfold mv_joint_vertical, mv_joint_horizontal. rewrite Jv, Jh.
    assert (Rr : reads (if negb (r - pr =? 0) then read_mv_component fi hp 0 else ret 0)
      (wif (negb (r - pr =? 0)) (encode_mv_component (r - pr) 0 (prec_of fi hp))) (r - pr)).
    { destruct (r - pr =? 0) eqn:E; cbn [negb wif].
      - apply Z.eqb_eq in E. rewrite E. apply reads_ret.
      - apply component_read; try assumption; lia. }
    assert (Rc : reads (if negb (c - pc =? 0) then read_mv_component fi hp 1 else ret 0)
      (wif (negb (c - pc =? 0)) (encode_mv_component (c - pc) 1 (prec_of fi hp))) (c - pc)).
    { destruct (c - pc =? 0) eqn:E; cbn [negb wif].
      - apply Z.eqb_eq in E. rewrite E. apply reads_ret.
      - apply component_read; try assumption; lia. }
    eapply reads_bind; [exact Rr|].
    eapply reads_val; [eapply reads_last; exact Rc|].
    cbv beta. cbn [fst snd]. f_equal; lia. }
  destruct R as [l [E H]]. exists l. split; [exact E|apply H].
Qed.

(** Outside the codable range the writer stops with an assertion rather than
    writing something else. *)
Theorem C39_out_of_range : forall mv pred p l,
  write_mv mv pred p = Some l ->
  - 16384 <= fst mv - fst pred <= 16384 /\ - 16384 <= snd mv - snd pred <= 16384.
Proof.
  intros [r c] [pr pc] p l H. cbn [fst snd]. unfold write_mv in H. cbn [fst snd] in H.
  destruct (mv_is_valid r c); [|discriminate]. cbn [wguard] in H.
  unfold i16c in H.
  destruct ((-32768 <=? r - pr) && (r - pr <=? 32767))%bool; [|discriminate].
  destruct ((-32768 <=? c - pc) && (c - pc <=? 32767))%bool; [|discriminate].
  assert (G : forall comp axis, (exists l, encode_mv_component comp axis p = Some l) -> - 16384 <= comp <= 16384).
  { intros comp axis [l' E]. unfold encode_mv_component in E.
    destruct (negb (comp =? 0)); [|discriminate]. cbn [wguard] in E.
    change MV_LOW with (-16384) in E. change MV_UPP with 16384 in E.
    destruct ((-16384 <=? comp) && (comp <=? 16384))%bool eqn:B; [lia|discriminate]. }
  set (j := get_mv_joint (r - pr) (c - pc)) in H.
  assert (Jv : mv_joint_vertical j = negb (r - pr =? 0))
    by (unfold j, get_mv_joint; destruct (r - pr =? 0), (c - pc =? 0); reflexivity).
  assert (Jh : mv_joint_horizontal j = negb (c - pc =? 0))
    by (unfold j, get_mv_joint; destruct (r - pr =? 0), (c - pc =? 0); reflexivity).
  cbv zeta in H. rewrite Jv, Jh in H. unfold wapp, wsym in H.
  split.
  - destruct (r - pr =? 0) eqn:E; [lia|]. apply (G _ 0). cbn [negb wif] in H.
    destruct (encode_mv_component (r - pr) 0 p) as [x|]; [exists x; reflexivity|discriminate].
  - destruct (c - pc =? 0) eqn:E; [lia|]. apply (G _ 1). cbn [negb wif] in H.
    destruct (wif _ _); [|discriminate].
    destruct (encode_mv_component (c - pc) 1 p) as [x|]; [exists x; reflexivity|discriminate].
Qed.

(** ** C38 *)

(** The arithmetic, for any number of segments. *)
Theorem C38_interleave : forall x pred max, 0 <= x < max -> 0 <= pred ->
  exists d, neg_interleave x pred max = Some d /\ 0 <= d < max /\ neg_deinterleave d pred max = x.
Proof. exact neg_roundtrip. Qed.

(** All the blocks of a tile, in any legal coding order, of any sizes, with and
    without skipping, whatever trial encodings leave in the encoder's map: the
    decoder finds the segments the encoder used, and ends with the same map. *)
Theorem C38_segments : forall (preskip : bool) (last cols rows : Z) (bs : list sblock) (m ids : segmap),
  0 <= last < 8 -> legal_order last cols rows [] bs ->
  exists e m' vs ids',
    encode_segments preskip last cols rows [] m bs = Some (e, m') /\
    (forall rest, read_blocks preskip last cols rows ids (map geometry bs) (e ++ rest)
       = Some ((combine vs (map sb_skip bs), ids'), rest)) /\
    length vs = length bs /\
    Forall2 (fun v b => sb_skip b = false \/ preskip = true -> v = sb_idx b) vs bs /\
    forall c r, done cols rows bs c r -> m' c r = ids' c r /\ 0 <= m' c r <= last.
Proof.
  intros preskip last cols rows bs m ids Hl HL.
  apply (blocks_read preskip last cols rows Hl bs [] m ids); [|exact HL].
  intros c r [b [[] _]].
Qed.

Print Assumptions C39_motion_vectors.
Print Assumptions C39_out_of_range.
Print Assumptions C38_interleave.
Print Assumptions C38_segments.

Example C39_quarter_pel :
  unit_of false false = 2 /\ (unit_of false false | 1234 - (-15000)) /\
  exists l, write_mv (1234, -7) (-15000, -7) (prec_of false false) = Some l /\
    length l = 14%nat /\
    read_mv false false (-15000, -7) l = Some ((1234, -7), []).
Proof.
  split; [reflexivity|]. split; [exists 8117; reflexivity|].
  eexists. split; [vm_compute; reflexivity|]. split; vm_compute; reflexivity.
Qed.

(** A 4:2:0 style layout: a tile of 4 x 2 units with three blocks, the last one
    skipped and sticking out of the tile. *)
Definition seg_example : list sblock := [
  {| sb_x := 0; sb_y := 0; sb_w := 2; sb_h := 2; sb_skip := false; sb_ctx := 0; sb_idx := 5;
     sb_trials := fun _ _ => 3 |};
  {| sb_x := 2; sb_y := 0; sb_w := 1; sb_h := 2; sb_skip := false; sb_ctx := 1; sb_idx := 2;
     sb_trials := fun _ _ => 6 |};
  {| sb_x := 3; sb_y := 0; sb_w := 4; sb_h := 4; sb_skip := true; sb_ctx := 2; sb_idx := 4;
     sb_trials := fun c r => c + r |} ].

Lemma done_intro cols rows l b c r : In b l ->
  covers cols rows (sb_x b) (sb_y b) (sb_w b) (sb_h b) c r = true -> done cols rows l c r.
Proof. intros I C. exists b. split; assumption. Qed.

Example C38_three_blocks :
  legal_order 5 4 2 [] seg_example /\
  exists e m', encode_segments false 5 4 2 [] (fun _ _ => 7) seg_example = Some (e, m') /\
    map (fun c => m' c 1) [0; 1; 2; 3] = [5; 5; 2; 2] /\
    match read_blocks false 5 4 2 (fun _ _ => 0) (map geometry seg_example) e with
    | Some ((vs, ids), rest) =>
        vs = [(5, false); (2, false); (2, true)] /\ map (fun c => ids c 1) [0; 1; 2; 3] = [5; 5; 2; 2] /\ rest = []
    | None => False
    end.
Proof.
  split.
  - cbn [legal_order seg_example app]. unfold legal. cbn [sb_x sb_y sb_w sb_h sb_idx].
    repeat split; try lia.
    + intros c r [b [[] _]].
    + intros _. eapply done_intro; [left; reflexivity|reflexivity].
    + intros c r [b [[<-|[]] C]]. unfold covers in *. cbn [sb_x sb_y sb_w sb_h] in *. lia.
    + intros _. eapply done_intro; [right; left; reflexivity|reflexivity].
    + intros c r [b [[<-|[<-|[]]] C]]; unfold covers in *; cbn [sb_x sb_y sb_w sb_h] in *; lia.
  - eexists. eexists. split; [vm_compute; reflexivity|]. split; [vm_compute; reflexivity|].
    vm_compute. repeat split.
Qed.
