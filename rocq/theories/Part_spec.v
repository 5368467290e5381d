(** The partition tree and the skip flags of a tile as a decoder reads them, from the AV1
    specification: decode_tile (5.11.2), decode_partition (5.11.4), decode_block (5.11.5,
    the skip flag and the stored arrays only), and the selection of the tables of partition,
    split_or_horz, split_or_vert and skip (8.3.2).  Superblocks are 64x64.  Sizes and
    positions are in units of 4 luma samples.  Nothing here refers to the encoder.

    The other elements of a block are left out of the stream: the tables of the elements
    here depend on nothing but the sizes and skip flags of the blocks before. *)
From Verif Require Import Sym.
Open Scope string_scope.
Open Scope Z_scope.
Open Scope list_scope.

(* a decoded block: row and column in the frame, width, height, skip *)
Record dblk := mkDB { d_row : Z; d_col : Z; d_w : Z; d_h : Z; d_skip : bool }.
(* MiSizes (as width and height) and Skips, by row and column *)
Record dst := mkD { MiSizes : Z -> Z -> Z * Z; Skips : Z -> Z -> bool }.

(* two parts of the syntax after one another *)
Definition dseq (a : reader (list dblk * dst)) (k : dst -> reader (list dblk * dst)) : reader (list dblk * dst) :=
  rd x <- a; rd y <- k (snd x); ret (fst x ++ fst y, snd y).

(** 8.3.2: the probability of split_or_horz and split_or_vert from a table of partition,
    given as in the specification (cumulative, increasing, 32768 last): the cumulative
    frequency of the value 0. *)
Definition freq (cdf : list Z) (v : Z) : Z := nth (Z.to_nat v) cdf 0 - (if v =? 0 then 0 else nth (Z.to_nat (v - 1)) cdf 0).
(* NONE 0, HORZ 1, VERT 2, SPLIT 3, HORZ_A 4, HORZ_B 5, VERT_A 6, VERT_B 7, HORZ_4 8, VERT_4 9 *)
Definition split_or_horz_0 (cdf : list Z) : Z :=
  32768 - (freq cdf 2 + freq cdf 3 + freq cdf 4 + freq cdf 6 + freq cdf 7 + freq cdf 9).
Definition split_or_vert_0 (cdf : list Z) : Z :=
  32768 - (freq cdf 1 + freq cdf 3 + freq cdf 4 + freq cdf 5 + freq cdf 6 + freq cdf 8).

Section Tile.
Variables MiRows MiCols MiRowStart MiRowEnd MiColStart MiColEnd : Z.

Definition is_inside (r c : Z) : bool :=
  (MiColStart <=? c) && (c <? MiColEnd) && (MiRowStart <=? r) && (r <? MiRowEnd).
Definition b2z (b : bool) : Z := if b then 1 else 0.

(* the context of partition: a neighbour is narrower (lower) than the block *)
Definition part_ctx (D : dst) (r c bsl : Z) : Z :=
  let above := is_inside (r - 1) c && (Z.log2 (fst (MiSizes D (r - 1) c)) <? bsl) in
  let left := is_inside r (c - 1) && (Z.log2 (snd (MiSizes D r (c - 1))) <? bsl) in
  b2z left * 2 + b2z above.
Definition skip_ctx (D : dst) (r c : Z) : Z :=
  (if is_inside (r - 1) c then b2z (Skips D (r - 1) c) else 0) +
  (if is_inside r (c - 1) then b2z (Skips D r (c - 1)) else 0).

Definition fill {A} (f : Z -> Z -> A) (r c w h : Z) (v : A) : Z -> Z -> A := fun r' c' =>
  if (r <=? r') && (r' <? r + h) && (c <=? c') && (c' <? c + w) then v else f r' c'.

Definition decode_block (r c w h : Z) (D : dst) : reader (list dblk * dst) :=
  rd s <- rsym "skip" [skip_ctx D r c] 2;
  ret ([mkDB r c w h (s =? 1)], mkD (fill (MiSizes D) r c w h (w, h)) (fill (Skips D) r c w h (s =? 1))).

(* the table of partition for a block of n units *)
Definition part_table (n : Z) : String.string :=
  if n =? 2 then "PartitionW8" else if n =? 4 then "PartitionW16" else if n =? 8 then "PartitionW32"
  else "PartitionW64".

Definition read_partition (r c n : Z) (D : dst) : reader Z :=
  let half := n / 2 in
  let hasRows := r + half <? MiRows in
  let hasCols := c + half <? MiCols in
  let bsl := Z.log2 n in
  let ctx := part_ctx D r c bsl in
  if n <? 2 then ret 0
  else if hasRows && hasCols then rsym (part_table n) [ctx] (if n =? 2 then 4 else 10)
  else if hasCols then rd s <- rsym (String.append "split_or_horz from " (part_table n)) [ctx] 2; ret (if s =? 1 then 3 else 1)
  else if hasRows then rd s <- rsym (String.append "split_or_vert from " (part_table n)) [ctx] 2; ret (if s =? 1 then 3 else 2)
  else ret 3.

(* the partitions into three or four blocks, values 4 to 9, are not read here *)
Fixpoint decode_partition (fuel : nat) (r c n : Z) (D : dst) : reader (list dblk * dst) :=
  match fuel with
  | O => fail
  | S fuel =>
    if (MiRows <=? r) || (MiCols <=? c) then ret ([], D) else
    let half := n / 2 in
    rd p <- read_partition r c n D;
    if p =? 0 then decode_block r c n n D
    else if p =? 1 then
      dseq (decode_block r c n half D)
           (fun D => if r + half <? MiRows then decode_block (r + half) c n half D else ret ([], D))
    else if p =? 2 then
      dseq (decode_block r c half n D)
           (fun D => if c + half <? MiCols then decode_block r (c + half) half n D else ret ([], D))
    else if p =? 3 then
      dseq (decode_partition fuel r c half D) (fun D =>
      dseq (decode_partition fuel r (c + half) half D) (fun D =>
      dseq (decode_partition fuel (r + half) c half D) (fun D =>
      decode_partition fuel (r + half) (c + half) half D)))
    else fail
  end.

(* the superblocks of a tile: rows and columns in steps of 16 *)
Fixpoint decode_sbs (sbs : list (Z * Z)) (D : dst) : reader (list dblk * dst) :=
  match sbs with
  | [] => ret ([], D)
  | (r, c) :: sbs => dseq (decode_partition 5 r c 16 D) (decode_sbs sbs)
  end.
Definition upto (n : Z) : list Z := map Z.of_nat (seq 0 (Z.to_nat n)).
Definition superblocks : list (Z * Z) :=
  flat_map (fun i => map (fun j => (MiRowStart + 16 * i, MiColStart + 16 * j)) (upto ((MiColEnd - MiColStart + 15) / 16)))
           (upto ((MiRowEnd - MiRowStart + 15) / 16)).
Definition decode_tile (D : dst) : reader (list dblk) :=
  rd x <- decode_sbs superblocks D; ret (fst x).
End Tile.
