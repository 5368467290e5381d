(** Availability of intra edge samples in a decoder, from the AV1 specification: the partition
    tree (5.11.4), the residual loops (5.11.34), the flags BlockDecoded (5.11.3
    clear_block_decoded_flags, 5.11.35 transform_block), and the preparation of the edge
    arrays (7.11.2).  Superblocks are 64x64.  Nothing here refers to the encoder. *)
From Verif Require Import Base.
Local Open Scope Z_scope.

(** Partition trees with the four partitions none, horizontal, vertical, split. *)
Inductive ptree := TNone | THorz | TVert | TSplit (a b c d : ptree).
(* a block: row and column in the frame, height and width, in units of 4 luma samples *)
Record blk := mkBlk { b_row : Z; b_col : Z; b_h : Z; b_w : Z }.

(* decode_partition: the blocks of a node in decoding order *)
Fixpoint decode_partition (MiRows MiCols : Z) (t : ptree) (r c n : Z) : list blk :=
  if (MiRows <=? r) || (MiCols <=? c) then [] else
  let half := n / 2 in
  match t with
  | TNone => [mkBlk r c n n]
  | THorz => mkBlk r c half n :: (if r + half <? MiRows then [mkBlk (r + half) c half n] else [])
  | TVert => mkBlk r c n half :: (if c + half <? MiCols then [mkBlk r (c + half) n half] else [])
  | TSplit t1 t2 t3 t4 =>
      decode_partition MiRows MiCols t1 r c half ++ decode_partition MiRows MiCols t2 r (c + half) half ++
      decode_partition MiRows MiCols t3 (r + half) c half ++ decode_partition MiRows MiCols t4 (r + half) (c + half) half
  end.
(* blocks of 4x4 are not divided *)
Fixpoint wf_tree (n : Z) (t : ptree) : Prop :=
  match t with
  | TNone => True
  | THorz | TVert => 2 <= n
  | TSplit a b c d => 2 <= n /\ wf_tree (n / 2) a /\ wf_tree (n / 2) b /\ wf_tree (n / 2) c /\ wf_tree (n / 2) d
  end.

(** One plane, given by its subsampling; luma is the case 0, 0. *)
Section Plane.
Variables subX subY : Z.
Definition HasChroma (b : blk) : bool :=
  negb ((subY =? 1) && (b_h b =? 1) && Z.even (b_row b)) && negb ((subX =? 1) && (b_w b =? 1) && Z.even (b_col b)).
(* get_plane_residual_size, in units of 4 samples *)
Definition plane_h (b : blk) : Z := Z.max 1 (Z.shiftr (b_h b) subY).
Definition plane_w (b : blk) : Z := Z.max 1 (Z.shiftr (b_w b) subX).

(* a transform block: position in the plane and size, in units of 4 samples *)
Record tx := mkTx { t_y : Z; t_x : Z; t_h : Z; t_w : Z }.
Definition upto (n : Z) : list Z := map Z.of_nat (seq 0 (Z.to_nat n)).
(* residual: the transform blocks of an intra block, of size th x tw, row by row *)
Definition raster (y0 x0 h w th tw : Z) : list tx :=
  flat_map (fun i => map (fun j => mkTx (y0 + i * th) (x0 + j * tw) th tw) (upto (w / tw))) (upto (h / th)).

(** What the residual of a block looks like: equal transform blocks (intra, and chroma),
    or any list (the transform tree of an inter block). *)
Inductive residual := Uniform (th tw : Z) | Tree (l : list tx).
Definition transform_blocks (rs : blk -> residual) (b : blk) : list tx :=
  if HasChroma b then
    match rs b with
    | Uniform th tw => raster (Z.shiftr (b_row b) subY) (Z.shiftr (b_col b) subX) (plane_h b) (plane_w b) th tw
    | Tree l => l
    end
  else [].

Variables MiRows MiCols MiRowEnd MiColEnd : Z.
(* clear_block_decoded_flags at superblock r, c: y and x count units of 4 samples from its corner *)
Definition clear_block_decoded_flags (r c : Z) (y x : Z) : bool :=
  if (y =? Z.shiftr 16 subY) && (x =? -1) then false
  else if (y <? 0) && (x <? Z.shiftr (MiColEnd - c) subX) then true
  else if (x <? 0) && (y <? Z.shiftr (MiRowEnd - r) subY) then true
  else false.
(* position in the superblock, as transform_block computes it *)
Definition in_sb (sub u : Z) : Z := Z.shiftr (Z.land (Z.shiftl u sub) 15) sub.
Definition in_rect (y x y0 x0 h w : Z) : bool := (y0 <=? y) && (y <? y0 + h) && (x0 <=? x) && (x <? x0 + w).
(* transform_block outside the frame does nothing *)
Definition outside (t : tx) : bool :=
  (Z.shiftr (4 * MiCols) subX <=? 4 * t_x t) || (Z.shiftr (4 * MiRows) subY <=? 4 * t_y t).
Definition transform_block (D : Z -> Z -> bool) (t : tx) : Z -> Z -> bool :=
  if outside t then D
  else fun y x => in_rect y x (in_sb subY (t_y t)) (in_sb subX (t_x t)) (t_h t) (t_w t) || D y x.
(* the flags after some transform blocks of the superblock at r, c *)
Definition BlockDecoded (r c : Z) (l : list tx) : Z -> Z -> bool := fold_left transform_block l (clear_block_decoded_flags r c).
(* AvailU, AvailL and their chroma versions, 5.11.5, and what 5.11.35 makes of them; tile
   rows and columns start at MiRowStart, MiColStart *)
Definition haveAbove (MiRowStart : Z) (b : blk) (t : tx) : bool :=
  if t_y t =? Z.shiftr (b_row b) subY then
    (if (subY =? 1) && (b_h b =? 1) then MiRowStart <=? b_row b - 2 else MiRowStart <=? b_row b - 1)
  else true.
Definition haveLeft (MiColStart : Z) (b : blk) (t : tx) : bool :=
  if t_x t =? Z.shiftr (b_col b) subX then
    (if (subX =? 1) && (b_w b =? 1) then MiColStart <=? b_col b - 2 else MiColStart <=? b_col b - 1)
  else true.
Definition haveAboveRt (D : Z -> Z -> bool) (t : tx) : bool := D (in_sb subY (t_y t) - 1) (in_sb subX (t_x t) + t_w t).
Definition haveBelowLft (D : Z -> Z -> bool) (t : tx) : bool := D (in_sb subY (t_y t) + t_h t) (in_sb subX (t_x t) - 1).
End Plane.

(** The edge arrays of 7.11.2 for a block of w x h samples at x, y of the plane.  At most w
    samples to the right of the block above, and h below the block to the left, are
    used; the last one is repeated. *)
Section Edges.
Variables (maxX maxY bd : Z) (CurrFrame : Z -> Z -> Z) (x y w h : Z).
Variables haveLeft haveAbove haveAboveRt haveBelowLft : bool.
Definition aboveRow (i : Z) : Z :=
  if negb haveAbove && haveLeft then CurrFrame y (x - 1)
  else if negb haveAbove && negb haveLeft then 2 ^ (bd - 1) - 1
  else if i <? w then CurrFrame (y - 1) (Z.min maxX (x + i))
  else if haveAboveRt then CurrFrame (y - 1) (Z.min maxX (x + Z.min i (2 * w - 1)))
  else CurrFrame (y - 1) (Z.min maxX (x + w - 1)).
Definition leftCol (i : Z) : Z :=
  if negb haveLeft && haveAbove then CurrFrame (y - 1) x
  else if negb haveLeft && negb haveAbove then 2 ^ (bd - 1) + 1
  else if i <? h then CurrFrame (Z.min maxY (y + i)) (x - 1)
  else if haveBelowLft then CurrFrame (Z.min maxY (y + Z.min i (2 * h - 1))) (x - 1)
  else CurrFrame (Z.min maxY (y + h - 1)) (x - 1).
Definition aboveLeft : Z :=
  if haveAbove && haveLeft then CurrFrame (y - 1) (x - 1)
  else if haveAbove then CurrFrame (y - 1) x
  else if haveLeft then CurrFrame y (x - 1)
  else 2 ^ (bd - 1).
End Edges.

(** 7.10.2: a point above and to the right of a block is scanned for motion vectors when it
    lies in the tile and has been decoded: it is in a superblock row above, or in a
    block of this superblock before this one. *)
Definition luma_in (r c : Z) (b : blk) : bool := in_rect r c (b_row b) (b_col b) (b_h b) (b_w b).
Definition decoded_before (r0 c0 : Z) (before : list blk) (r c : Z) : bool :=
  if r <? r0 then true
  else if c <? c0 then r <? r0 + 16
  else existsb (luma_in r c) before.
