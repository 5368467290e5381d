(** Segment identifiers in the AV1 specification: read_segment_id (5.11.9),
    neg_deinterleave, the segment_id context (8.3.2), intra_segment_id and
    inter_segment_id (5.11.8, 5.11.19) with segmentation_update_map equal to 1
    and segmentation_temporal_update equal to 0, and the storing of SegmentIds
    in decode_block (5.11.5). *)
From Verif Require Import Sym.
Open Scope string_scope.
Open Scope Z_scope.
Open Scope list_scope.

Definition neg_deinterleave (diff ref max : Z) : Z :=
  if ref =? 0 then diff
  else if ref >=? max - 1 then max - diff - 1
  else if 2 * ref <? max then
    if diff <=? 2 * ref then
      if Z.odd diff then ref + (diff + 1) / 2 else ref - diff / 2
    else diff
  else
    if diff <=? 2 * (max - ref - 1) then
      if Z.odd diff then ref + (diff + 1) / 2 else ref - diff / 2
    else max - (diff + 1).

Definition clip3 (lo hi x : Z) : Z := if x <? lo then lo else if x >? hi then hi else x.

(** Neighbours: [None] is "not available", the specification's -1. *)
Definition neighbours (ids : Z -> Z -> Z) (col row : Z) : option Z * option Z * option Z :=
  let availU := row >? 0 in
  let availL := col >? 0 in
  ((if availU && availL then Some (ids (col - 1) (row - 1)) else None)%bool,
   if availU then Some (ids col (row - 1)) else None,
   if availL then Some (ids (col - 1) row) else None).

Definition seg_ctx (n : option Z * option Z * option Z) : Z :=
  match n with
  | (Some ul, Some u, Some l) =>
      if ((ul =? u) && (ul =? l))%bool then 2
      else if ((ul =? u) || (ul =? l) || (u =? l))%bool then 1
      else 0
  | _ => 0
  end.
Definition seg_pred (n : option Z * option Z * option Z) : Z :=
  match n with
  | (_, None, None) => 0
  | (_, None, Some l) => l
  | (_, Some u, None) => u
  | (Some ul, Some u, Some l) => if ul =? u then u else l
  | (None, Some u, Some l) => l
  end.

Definition read_segment_id (last : Z) (ids : Z -> Z -> Z) (col row : Z) (skip : bool) : reader Z :=
  let n := neighbours ids col row in
  if skip then ret (seg_pred n)
  else
    rd s <- rsym "segment_id" [seg_ctx n] 8;
    ret (clip3 0 last (neg_deinterleave s (seg_pred n) (last + 1))).

(** segment id before and after the skip flag *)
Definition read_block (preskip : bool) (last : Z) (ids : Z -> Z -> Z) (col row skip_ctx : Z)
  : reader (Z * bool) :=
  if preskip then
    rd s <- read_segment_id last ids col row false;
    rd k <- rsym "skip" [skip_ctx] 2;
    ret (s, k =? 1)
  else
    rd k <- rsym "skip" [skip_ctx] 2;
    rd s <- read_segment_id last ids col row (k =? 1);
    ret (s, k =? 1).

(** a block's area inside the tile *)
Definition covers (cols rows col row bw bh c r : Z) : bool :=
  ((col <=? c) && (c <? Z.min (col + bw) cols) && (row <=? r) && (r <? Z.min (row + bh) rows))%bool.
Definition store (cols rows : Z) (ids : Z -> Z -> Z) (col row bw bh v : Z) : Z -> Z -> Z :=
  fun c r => if covers cols rows col row bw bh c r then v else ids c r.

(** The blocks of a tile, given by position, size and skip context. *)
Fixpoint read_blocks (preskip : bool) (last cols rows : Z) (ids : Z -> Z -> Z)
    (bs : list (Z * Z * Z * Z * Z)) : reader (list (Z * bool) * (Z -> Z -> Z)) :=
  match bs with
  | [] => ret ([], ids)
  | (col, row, bw, bh, ctx) :: bs =>
      rd v <- read_block preskip last ids col row ctx;
      rd rest <- read_blocks preskip last cols rows (store cols rows ids col row bw bh (fst v)) bs;
      ret (v :: fst rest, snd rest)
  end.
