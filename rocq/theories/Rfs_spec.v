(** is_inter and the reference frames of a block, from the AV1 specification: read_is_inter
    (5.11.20), read_ref_frames (5.11.25) and the contexts of 8.3.2.

    Left out: skip mode (off) and the segment features for the reference and global motion
    (not enabled).  A compound of one direction would be followed by uni_comp_ref; this
    reader stops there. *)
From Verif Require Import Sym.
Open Scope string_scope.
Open Scope Z_scope.
Open Scope list_scope.

(** 6.10.24: NONE -1, INTRA_FRAME 0, LAST 1, LAST2 2, LAST3 3, GOLDEN 4, BWDREF 5, ALTREF2 6, ALTREF 7 *)
Section Block.
Variable reference_select : bool.
(* first row and column of the tile, position and size of the block, references decoded so far *)
Variables MiRowStart MiColStart MiRow MiCol bw4 bh4 : Z.
Variable RefFrames : Z -> Z -> Z * Z.

Definition AvailU : bool := MiRowStart <=? MiRow - 1.
Definition AvailL : bool := MiColStart <=? MiCol - 1.
Definition AboveRefFrame : Z * Z := if AvailU then RefFrames (MiRow - 1) MiCol else (0, -1).
Definition LeftRefFrame : Z * Z := if AvailL then RefFrames MiRow (MiCol - 1) else (0, -1).
Definition AboveIntra : bool := fst AboveRefFrame <=? 0.
Definition LeftIntra : bool := fst LeftRefFrame <=? 0.
Definition AboveSingle : bool := snd AboveRefFrame <=? 0.
Definition LeftSingle : bool := snd LeftRefFrame <=? 0.
Definition check_backward (r : Z) : bool := (5 <=? r) && (r <=? 7).

Definition is_inter_ctx : Z :=
  if AvailU && AvailL then (if LeftIntra && AboveIntra then 3 else Z.b2z (LeftIntra || AboveIntra))
  else if AvailU || AvailL then 2 * Z.b2z (if AvailU then AboveIntra else LeftIntra)
  else 0.

Definition comp_mode_ctx : Z :=
  if AvailU && AvailL then
    if AboveSingle && LeftSingle then Z.b2z (xorb (check_backward (fst AboveRefFrame)) (check_backward (fst LeftRefFrame)))
    else if AboveSingle then 2 + Z.b2z (check_backward (fst AboveRefFrame) || AboveIntra)
    else if LeftSingle then 2 + Z.b2z (check_backward (fst LeftRefFrame) || LeftIntra)
    else 4
  else if AvailU then (if AboveSingle then Z.b2z (check_backward (fst AboveRefFrame)) else 3)
  else if AvailL then (if LeftSingle then Z.b2z (check_backward (fst LeftRefFrame)) else 3)
  else 1.

Definition is_samedir_ref_pair (a b : Z) : bool := Bool.eqb (5 <=? a) (5 <=? b).
Definition comp_ref_type_ctx : Z :=
  let above0 := fst AboveRefFrame in let left0 := fst LeftRefFrame in
  let aboveCompInter := AvailU && negb AboveIntra && negb AboveSingle in
  let leftCompInter := AvailL && negb LeftIntra && negb LeftSingle in
  let aboveUniComp := aboveCompInter && is_samedir_ref_pair above0 (snd AboveRefFrame) in
  let leftUniComp := leftCompInter && is_samedir_ref_pair left0 (snd LeftRefFrame) in
  if AvailU && negb AboveIntra && AvailL && negb LeftIntra then
    let samedir := Z.b2z (is_samedir_ref_pair above0 left0) in
    if negb aboveCompInter && negb leftCompInter then 1 + 2 * samedir
    else if negb aboveCompInter then (if negb leftUniComp then 1 else 3 + samedir)
    else if negb leftCompInter then (if negb aboveUniComp then 1 else 3 + samedir)
    else if negb aboveUniComp && negb leftUniComp then 0
    else if negb aboveUniComp || negb leftUniComp then 2
    else 3 + Z.b2z (Bool.eqb (above0 =? 5) (left0 =? 5))
  else if AvailU && AvailL then
    if aboveCompInter then 1 + 2 * Z.b2z aboveUniComp
    else if leftCompInter then 1 + 2 * Z.b2z leftUniComp
    else 2
  else if aboveCompInter then 4 * Z.b2z aboveUniComp
  else if leftCompInter then 4 * Z.b2z leftUniComp
  else 2.

Definition count_refs (f : Z) : Z :=
  (if AvailU then Z.b2z (fst AboveRefFrame =? f) + Z.b2z (snd AboveRefFrame =? f) else 0) +
  (if AvailL then Z.b2z (fst LeftRefFrame =? f) + Z.b2z (snd LeftRefFrame =? f) else 0).
Definition ref_count_ctx (a b : Z) : Z := if a <? b then 0 else if a =? b then 1 else 2.
Definition ctx_p1 : Z :=
  ref_count_ctx (count_refs 1 + count_refs 2 + count_refs 3 + count_refs 4) (count_refs 5 + count_refs 6 + count_refs 7).
Definition ctx_p2 : Z := ref_count_ctx (count_refs 5 + count_refs 6) (count_refs 7).
Definition ctx_p3 : Z := ref_count_ctx (count_refs 1 + count_refs 2) (count_refs 3 + count_refs 4).
Definition ctx_p4 : Z := ref_count_ctx (count_refs 1) (count_refs 2).
Definition ctx_p5 : Z := ref_count_ctx (count_refs 3) (count_refs 4).
Definition ctx_p6 : Z := ref_count_ctx (count_refs 5) (count_refs 6).

Definition single_ref : reader (Z * Z) :=
  rd p1 <- rsym "SingleRef" [ctx_p1; 0] 2;
  if p1 =? 1 then
    rd p2 <- rsym "SingleRef" [ctx_p2; 1] 2;
    if p2 =? 0 then rd p6 <- rsym "SingleRef" [ctx_p6; 5] 2; ret (if p6 =? 1 then 6 else 5, -1) else ret (7, -1)
  else
    rd p3 <- rsym "SingleRef" [ctx_p3; 2] 2;
    if p3 =? 1 then rd p5 <- rsym "SingleRef" [ctx_p5; 4] 2; ret (if p5 =? 1 then 4 else 3, -1)
    else rd p4 <- rsym "SingleRef" [ctx_p4; 3] 2; ret (if p4 =? 1 then 2 else 1, -1).
Definition comp_ref : reader (Z * Z) :=
  rd t <- rsym "CompRefType" [comp_ref_type_ctx] 2;
  if t =? 0 then fail else
  rd c <- rsym "CompRef" [ctx_p3; 0] 2;
  rd r0 <- (if c =? 0 then rd p <- rsym "CompRef" [ctx_p4; 1] 2; ret (if p =? 1 then 2 else 1)
            else rd p <- rsym "CompRef" [ctx_p5; 2] 2; ret (if p =? 1 then 4 else 3));
  rd b <- rsym "CompBwdRef" [ctx_p2; 0] 2;
  rd r1 <- (if b =? 0 then rd p <- rsym "CompBwdRef" [ctx_p6; 1] 2; ret (if p =? 1 then 6 else 5) else ret 7);
  ret (r0, r1).
Definition read_ref_frames : reader (Z * Z) :=
  rd c <- (if reference_select && (2 <=? Z.min bw4 bh4) then rsym "CompMode" [comp_mode_ctx] 2 else ret 0);
  if c =? 1 then comp_ref else single_ref.
(* the references of the block; an intra block has (INTRA_FRAME, NONE) *)
Definition read_block_refs : reader (Z * Z) :=
  rd i <- rsym "IsInter" [is_inter_ctx] 2;
  if i =? 1 then read_ref_frames else ret (0, -1).
End Block.
