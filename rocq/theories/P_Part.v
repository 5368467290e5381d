(** C59: a decoder reads back the partition tree and the skip flags of a tile. *)
From Verif Require Import Sym Part_spec Part_model Part_proof.
Open Scope string_scope.
Open Scope Z_scope.
Open Scope list_scope.

(** A tile at row R0, column C0 of the frame, mh rows and mw columns of 4x4 units; a tile
    not at the bottom (right) of the frame ends at a superblock.  For every choice of trees
    the encoder can make, and whatever skip flags and block sizes encoder and decoder hold
    from before, the decoder reads the same blocks with the same skip flags, from the same
    tables: no table depends on stale data, and the decoder stops where the encoder did. *)
Theorem C59_tile : forall MiRows MiCols R0 C0 mh mw (sb : Z -> Z -> etree) (sk : Z -> Z -> bool) (D : dst),
  0 < mh -> mh mod 2 = 0 -> 0 < mw -> mw mod 2 = 0 ->
  R0 + mh = MiRows \/ (mh mod 16 = 0 /\ R0 + mh <= MiRows) ->
  C0 + mw = MiCols \/ (mw mod 16 = 0 /\ C0 + mw <= MiCols) ->
  (forall j i, 0 <= j -> 0 <= i -> 16 * j < mw -> 16 * i < mh -> chosen mw mh (sb j i) (16 * j) (16 * i) 16) ->
  exists l, encode_tile mw mh sb sk = Some l /\
    forall rest, decode_tile MiRows MiCols R0 (R0 + mh) C0 (C0 + mw) D (l ++ rest) = Some (tile_leaves R0 C0 mh mw sb, rest).
Proof.
  intros MiRows MiCols R0 C0 mh mw sb sk D H1 H2 H3 H4 H5 H6 H7.
  exact (tile_ok MiRows MiCols R0 C0 mh mw (conj H1 H2) (conj H3 H4) H5 H6 sb H7 sk D).
Qed.

(** Element probabilities of such a table *)
Lemma elements c0 c1 c2 c3 c4 c5 c6 c7 c8 count :
  let rav1e := map (fun c => 32768 - c) [c0; c1; c2; c3; c4; c5; c6; c7; c8] ++ [count] in
  cdf_element_prob rav1e 1 = c1 - c0 /\ cdf_element_prob rav1e 2 = c2 - c1 /\ cdf_element_prob rav1e 3 = c3 - c2 /\ cdf_element_prob rav1e 4 = c4 - c3 /\ cdf_element_prob rav1e 5 = c5 - c4 /\ cdf_element_prob rav1e 6 = c6 - c5 /\ cdf_element_prob rav1e 7 = c7 - c6 /\ cdf_element_prob rav1e 8 = c8 - c7 /\ cdf_element_prob rav1e 9 = 32768 - c8.
Proof.
  intros rav1e. unfold cdf_element_prob.
  repeat match goal with |- context [?a + 1 <? ?b] => let v := eval vm_compute in (a + 1 <? b) in change (a + 1 <? b) with v end.
  repeat match goal with |- context [Z.to_nat ?a] => let v := eval vm_compute in (Z.to_nat a) in change (Z.to_nat a) with v end.
  cbn -[Z.sub]. lia.
Qed.

(** The probability of split_or_horz and split_or_vert is the specification's, for any table
    of partition with ten values (rav1e holds 32768 minus the cumulative frequency). *)
Theorem C59_gather : forall c0 c1 c2 c3 c4 c5 c6 c7 c8 count,
  0 <= c0 -> c0 <= c1 -> c1 <= c2 -> c2 <= c3 -> c3 <= c4 -> c4 <= c5 -> c5 <= c6 -> c6 <= c7 -> c7 <= c8 -> c8 <= 32768 ->
  let cdf := [c0; c1; c2; c3; c4; c5; c6; c7; c8; 32768] in
  let rav1e := map (fun c => 32768 - c) [c0; c1; c2; c3; c4; c5; c6; c7; c8] ++ [count] in
  gather_vert_alike rav1e = Some (32768 - split_or_horz_0 cdf) /\
  gather_horz_alike rav1e = Some (32768 - split_or_vert_0 cdf).
Proof.
  intros. destruct (elements c0 c1 c2 c3 c4 c5 c6 c7 c8 count) as (E1 & E2 & E3 & E4 & E5 & E6 & E7 & E8 & E9).
  fold rav1e in E1, E2, E3, E4, E5, E6, E7, E8, E9. clearbody rav1e.
  unfold gather_vert_alike, gather_horz_alike.
  rewrite !sub_probs_ok.
  - cbn [map fold_right option_map]. rewrite E1, E2, E3, E4, E5, E6, E7, E8, E9.
    unfold split_or_horz_0, split_or_vert_0, freq, cdf.
    cbn [Z.eqb Pos.eqb].
    repeat match goal with |- context [Z.to_nat (?a - 1)] => let v := eval vm_compute in (Z.to_nat (a - 1)) in change (Z.to_nat (a - 1)) with v end.
    repeat match goal with |- context [Z.to_nat ?a] => let v := eval vm_compute in (Z.to_nat a) in change (Z.to_nat a) with v end.
    cbn -[Z.sub Z.add]. split; f_equal; ring.
  - intros e He. cbn [In] in He. repeat (destruct He as [ <- | He]; [lia|]); contradiction.
  - cbn [map fold_right]. lia.
  - intros e He. cbn [In] in He. repeat (destruct He as [ <- | He]; [lia|]); contradiction.
  - cbn [map fold_right]. lia.
Qed.

Print Assumptions C59_tile.
Print Assumptions C59_gather.

(** ** Cases *)
(* a tile of 72x40 samples at row 16, column 32 of a frame of 26 x 50 units *)
Definition case_sb (j i : Z) : etree :=
  if j =? 0 then
    ESplit (ESplit (ENone true) (EHorz false true) (ESplit (ENone true) (ENone false) (EVert true true) (ESplit (ENone false) (ENone true) (ENone true) (ENone false))) (ENone false))
           (ENone true)
           (EHorz false true)
           (ESplit (EHorz true false) (EHorz false true) (ENone true) (ENone true))
  else ESplit (ESplit (EVert true false) (ENone false) (EVert false false) (ENone false)) (ENone false) (ESplit (ESplit (ENone true) (ENone false) (ENone false) (ENone false)) (ENone false) (ENone false) (ENone false)) (ENone false).
Definition case_any_sizes : dst := mkD (fun r c => (r + c, r - c)) (fun r c => Z.even (r + c)).

Example C59_case_chosen : forall j i, 0 <= j -> 0 <= i -> 16 * j < 18 -> 16 * i < 10 -> chosen 18 10 (case_sb j i) (16 * j) (16 * i) 16.
Proof.
  intros j i Hj Hi Lj Li. assert (i = 0) by lia. assert (K : j = 0 \/ j = 1) by lia. subst i.
  destruct K as [ -> | -> ]; cbn; repeat first [lia | split | intro].
Qed.
Example C59_case_reads :
  match encode_tile 18 10 case_sb (fun x y => Z.odd (x * y)) with
  | None => False
  | Some l => decode_tile 26 50 16 26 32 50 case_any_sizes l = Some (tile_leaves 16 32 10 18 case_sb, []) /\ (30 <? zlen l) = true
  end.
Proof. vm_compute. split; reflexivity. Qed.
(* the first symbols, and the symbols at the bottom and right edges *)
Example C59_case_symbols :
  option_map (firstn 3) (encode_tile 18 10 case_sb (fun _ _ => false)) =
  Some [ESym "PartitionW64" [0] 10 3; ESym "PartitionW32" [0] 10 3; ESym "PartitionW16" [0] 10 0].
Proof. reflexivity. Qed.
Example C59_case_edge :
  option_map (filter (fun v => match v with ESym t _ _ _ => String.prefix "split_or" t | _ => false end))
    (encode_tile 18 10 case_sb (fun _ _ => false)) =
  Some [ESym "split_or_horz from PartitionW32" [1] 2 0;
        ESym "split_or_horz from PartitionW32" [2] 2 1;
        ESym "split_or_horz from PartitionW16" [0] 2 0;
        ESym "split_or_horz from PartitionW16" [2] 2 0;
        ESym "split_or_vert from PartitionW64" [2] 2 1;
        ESym "split_or_vert from PartitionW32" [0] 2 1;
        ESym "split_or_vert from PartitionW16" [0] 2 0;
        ESym "split_or_vert from PartitionW16" [1] 2 0].
Proof. vm_compute. reflexivity. Qed.
(* a tree that crosses the edge without being split is not written *)
Example C59_case_cross : encode_tile 18 10 (fun _ _ => ENone true) (fun _ _ => false) = None.
Proof. reflexivity. Qed.
(* default_partition_cdf[0] of 64x64 blocks *)
Example C59_case_gather :
  gather_vert_alike (map (fun c => 32768 - c) [20137; 21547; 23078; 29566; 29837; 30261; 30524; 30892; 31724] ++ [0]) =
  Some (1531 + 6488 + 271 + 263 + 368 + 1044).
Proof. reflexivity. Qed.
