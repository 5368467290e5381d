(** Model of the coding of the partition tree and the skip flags of a tile:
    /repo/src/context/partition_unit.rs, /repo/src/encoder.rs, /repo/src/rdo.rs
    (get_sub_partitions), /repo/src/context/block_unit.rs, /repo/src/tiling/tile_blocks.rs.

    The tree that the rate-distortion search settles on is an input: a tree with the skip
    flag of each block.  Rollback of what trial encodings wrote is C22; here the symbols of
    the final pass appear.  Sizes are in units of 4 samples (width_mi), positions are
    relative to the tile.  Blocks' other syntax is left out. *)
From Verif Require Import Sym.
Open Scope string_scope.
Open Scope Z_scope.
Open Scope list_scope.

Inductive etree :=
  | ENone (s : bool) | EHorz (s1 s2 : bool) | EVert (s1 s2 : bool) | ESplit (a b c d : etree).
(* above_partition_context, left_partition_context, the skip flags of the tile's blocks (column, row) *)
Record est := mkE { above : Z -> Z; left : Z -> Z; skips : Z -> Z -> bool }.

(** partition_unit.rs:15-38: partition_context_lookup, the sizes used here, in units of 4 *)
Definition partition_context_lookup : list ((Z * Z) * (Z * Z)) :=
  [((1, 1), (31, 31)); ((1, 2), (31, 30)); ((2, 1), (30, 31)); ((2, 2), (30, 30)); ((2, 4), (30, 28)); ((4, 2), (28, 30));
   ((4, 4), (28, 28)); ((4, 8), (28, 24)); ((8, 4), (24, 28)); ((8, 8), (24, 24)); ((8, 16), (24, 16)); ((16, 8), (16, 24));
   ((16, 16), (16, 16))].
Fixpoint find_size (w h : Z) (l : list ((Z * Z) * (Z * Z))) : Z * Z :=
  match l with
  | [] => (0, 0)
  | ((w', h'), v) :: l => if (w =? w') && (h =? h') then v else find_size w h l
  end.

(** cdf_context.rs:721-724: cdf_element_prob; [cdf] is rav1e's table of n entries, 32768
    minus the cumulative frequencies, the last entry being the counter *)
Definition cdf_element_prob (cdf : list Z) (e : Z) : Z :=
  (if 0 <? e then nth (Z.to_nat (e - 1)) cdf 0 else 32768) -
  (if e + 1 <? zlen cdf then nth (Z.to_nat e) cdf 0 else 0).
(** partition_unit.rs:132-160, 162-190: the first entry of the gathered table; u16
    arithmetic, [None] if a subtraction goes below zero *)
Fixpoint sub_probs (out : Z) (cdf : list Z) (es : list Z) : option Z :=
  match es with
  | [] => Some out
  | e :: es => let p := cdf_element_prob cdf e in if (p <? 0) || (out <? p) then None else sub_probs (out - p) cdf es
  end.
Definition gather_horz_alike (cdf : list Z) : option Z := option_map (fun out => 32768 - out) (sub_probs 32768 cdf [1; 3; 4; 5; 6; 8]).
Definition gather_vert_alike (cdf : list Z) : option Z := option_map (fun out => 32768 - out) (sub_probs 32768 cdf [2; 3; 4; 6; 7; 9]).

Section Tile.
(* ts.mi_width, ts.mi_height, equal to the size of the tile's blocks *)
Variables mw mh : Z.

(** block_unit.rs:85-87: y_in_sb *)
Definition y_in_sb (y : Z) : Z := y mod 16.

(** partition_unit.rs:416-432: partition_plane_context *)
Definition partition_plane_context (e : est) (x y n : Z) : Z :=
  let above_ctx := above e (Z.shiftr x 1) in
  let left_ctx := left e (Z.shiftr (y_in_sb y) 1) in
  let bsl := Z.log2 (4 * n) - Z.log2 8 in
  let above := Z.land (Z.shiftr above_ctx bsl) 1 in
  let left := Z.land (Z.shiftr left_ctx bsl) 1 in
  left * 2 + above + bsl * 4.

(** Which table of the specification an entry of rav1e's arrays is (entropymode.rs:296-325:
    four tables per block size, 16, 32, 64). *)
Definition partition_cdf (i : Z) : String.string * Z :=
  if i <? 4 then ("PartitionW16", i) else if i <? 8 then ("PartitionW32", i - 4) else ("PartitionW64", i - 8).
(* ctx < PARTITION_TYPES, ctx < 4 * PARTITION_TYPES; 128x128 blocks are not modelled *)
Definition table_of (ctx : Z) : option (String.string * Z * Z) :=
  if ctx <? 4 then Some ("PartitionW8", ctx, 4)
  else if ctx <? 16 then Some (fst (partition_cdf (ctx - 4)), snd (partition_cdf (ctx - 4)), 10)
  else None.

(** partition_unit.rs:267-357: write_partition; [p] is the value of the PartitionType
    (partition.rs:114-126): NONE 0, HORZ 1, VERT 2, SPLIT 3.  The table gathered by
    partition_gather_vert_alike is the one of split_or_horz, the other of split_or_vert
    (C59_gather). *)
Definition write_partition (e : est) (x y p n : Z) : option (list ev) :=
  if n <? 2 then None else
  let hbs := n / 2 in
  let has_cols := x + hbs <? mw in
  let has_rows := y + hbs <? mh in
  let ctx := partition_plane_context e x y n in
  if negb (ctx <? 20) then None
  else if negb has_rows && negb has_cols then Some []
  else match table_of ctx with
  | None => None
  | Some (t, i, size) =>
    if has_rows && has_cols then Some [ESym t [i] size p]
    else if negb has_rows && has_cols then
      if negb ((p =? 3) || (p =? 1)) || negb (2 <? n) then None
      else Some [ESym (String.append "split_or_horz from " t) [i] 2 (if p =? 3 then 1 else 0)]
    else
      if negb ((p =? 3) || (p =? 2)) || negb (2 <? n) then None
      else Some [ESym (String.append "split_or_vert from " t) [i] 2 (if p =? 3 then 1 else 0)]
  end.

(** partition_unit.rs:480-503: update_partition_context, subsize w x h *)
Definition update_partition_context (e : est) (x y w h n : Z) : est :=
  let v := find_size w h partition_context_lookup in
  mkE (fun i => if (Z.shiftr x 1 <=? i) && (i <? Z.shiftr (x + n) 1) then fst v else above e i)
      (fun i => if (Z.shiftr (y_in_sb y) 1 <=? i) && (i <? Z.shiftr (y_in_sb y + n) 1) then snd v else left e i)
      (skips e).

(** tile_blocks.rs:206-224, 252-256: set_skip, clipped to the tile *)
Definition set_skip (e : est) (x y w h : Z) (s : bool) : est :=
  let w := if mw <=? x + w then mw - x else w in
  mkE (above e) (left e)
      (fun x' y' => if (y <=? y') && (y' <? y + h) && (y' <? mh) && (x <=? x') && (x' <? x + w) then s else skips e x' y').
(** partition_unit.rs:470-474: skip_context *)
Definition skip_context (e : est) (x y : Z) : Z :=
  (if (0 <? y) && skips e x (y - 1) then 1 else 0) + (if (0 <? x) && skips e (x - 1) y then 1 else 0).

(** encoder.rs:1896-1913: encode_block_pre_cdef, set_skip and write_skip; partition_unit.rs:195-203 *)
Definition encode_block (e : est) (x y w h : Z) (s : bool) : option (list ev * est) :=
  let e := set_skip e x y w h s in
  Some ([ESym "skip" [skip_context e x y] 2 (if s then 1 else 0)], e).
(** encoder.rs:2924-2926 (and 2646-2648, 2798-2800): nothing is coded outside the tile *)
Definition encode_sub (e : est) (x y w h : Z) (s : bool) : option (list ev * est) :=
  if (mw <=? x) || (mh <=? y) then Some ([], e) else encode_block e x y w h s.

Definition eseq (a : option (list ev * est)) (k : est -> option (list ev * est)) : option (list ev * est) :=
  match a with
  | None => None
  | Some (l, e) => match k e with None => None | Some (l', e') => Some (l ++ l', e') end
  end.

(** partition.rs:419-464: subsize *)
Definition subsize (n p : Z) : Z * Z :=
  if p =? 0 then (n, n) else if p =? 1 then (n, n / 2) else if p =? 2 then (n / 2, n) else (n / 2, n / 2).
Definition part_type (t : etree) : Z := match t with ENone _ => 0 | EHorz _ _ => 1 | EVert _ _ => 2 | ESplit _ _ _ _ => 3 end.

(** encoder.rs:2917-3222: encode_partition_topdown, and 2634-2914: encode_partition_bottomup,
    which writes the same for its final choice; get_sub_partitions (rdo.rs:1825-1846).
    A non-square part writes no partition symbol and is one block. *)
Fixpoint encode_partition (t : etree) (x y n : Z) (e : est) : option (list ev * est) :=
  if (mw <=? x) || (mh <=? y) then Some ([], e) else
  let half := n / 2 in
  match (if 2 <=? n then write_partition e x y (part_type t) n else Some []) with
  | None => None
  | Some l1 =>
    match (match t with
           | ENone s => encode_block e x y n n s
           | EHorz s1 s2 => eseq (encode_sub e x y n half s1) (fun e => encode_sub e x (y + half) n half s2)
           | EVert s1 s2 => eseq (encode_sub e x y half n s1) (fun e => encode_sub e (x + half) y half n s2)
           | ESplit a b c d =>
               eseq (encode_partition a x y half e) (fun e =>
               eseq (encode_partition b (x + half) y half e) (fun e =>
               eseq (encode_partition c x (y + half) half e) (fun e =>
               encode_partition d (x + half) (y + half) half e)))
           end) with
    | None => None
    | Some (l2, e) =>
      let (w, h) := subsize n (part_type t) in
      Some (l1 ++ l2,
            if (2 <=? n) && ((n =? 2) || negb (part_type t =? 3)) then update_partition_context e x y w h n else e)
    end
  end.

(** Which trees the encoder can choose.  encoder.rs:2936-2937, 2655-2656 (must_split: no
    PARTITION_NONE across the edge), 2736-2751 (PARTITION_HORZ needs has_cols,
    PARTITION_VERT needs has_rows), 2671 (blocks below 8x8 are not split). *)
Fixpoint chosen (t : etree) (x y n : Z) : Prop :=
  x < mw -> y < mh ->
  match t with
  | ENone _ => x + n / 2 < mw /\ y + n / 2 < mh
  | EHorz _ _ => 2 <= n /\ x + n / 2 < mw
  | EVert _ _ => 2 <= n /\ y + n / 2 < mh
  | ESplit a b c d =>
      2 <= n /\ chosen a x y (n / 2) /\ chosen b (x + n / 2) y (n / 2) /\ chosen c x (y + n / 2) (n / 2) /\
      chosen d (x + n / 2) (y + n / 2) (n / 2)
  end.

(** block_unit.rs:394-401: reset_left_contexts, the partition context *)
Definition reset_left (e : est) : est := mkE (above e) (fun _ => 0) (skips e).
(** encoder.rs:3486-3540: encode_tile, the superblocks of one row *)
Fixpoint encode_row (cols : nat) (sbx : Z) (sby : Z) (sb : Z -> Z -> etree) (e : est) : option (list ev * est) :=
  match cols with
  | O => Some ([], e)
  | S cols => eseq (encode_partition (sb sbx sby) (16 * sbx) (16 * sby) 16 e) (encode_row cols (sbx + 1) sby sb)
  end.
Fixpoint encode_rows (rows : nat) (sby : Z) (sb : Z -> Z -> etree) (e : est) : option (list ev * est) :=
  match rows with
  | O => Some ([], e)
  | S rows => eseq (encode_row (Z.to_nat ((mw + 15) / 16)) 0 sby sb (reset_left e)) (encode_rows rows (sby + 1) sb)
  end.
(** block_unit.rs:244-260: BlockContext::new; [sk] is what the blocks hold before *)
Definition encode_tile (sb : Z -> Z -> etree) (sk : Z -> Z -> bool) : option (list ev) :=
  option_map fst (encode_rows (Z.to_nat ((mh + 15) / 16)) 0 sb (mkE (fun _ => 0) (fun _ => 0) sk)).
End Tile.
