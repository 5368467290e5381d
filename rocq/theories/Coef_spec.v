(** Reading coefficients, from the AV1 specification: 5.11.39 coeffs, 5.11.47
    transform_type, 5.11.48 get_tx_set, the contexts of section 8.3.2 (all_zero,
    eob_pt, eob_extra, coeff_base, coeff_base_eob, coeff_br, dc_sign), 5.11.5
    reset_block_context, clear_left_context and clear_above_context.

    The tables of probabilities carry the names the encoder has for them.
    A transform size is given by the logarithms of its dimensions. *)
From Verif Require Export Sym Quant_spec.
Open Scope string_scope.
Open Scope Z_scope.
Open Scope list_scope.

(** Tx_Size_Sqr, Tx_Size_Sqr_Up, txSzCtx *)
Definition sqr_of (wl hl : Z) : Z := Z.min wl hl - 2.
Definition sqr_up_of (wl hl : Z) : Z := Z.max wl hl - 2.
Definition txSzCtx (wl hl : Z) : Z := (sqr_of wl hl + sqr_up_of wl hl + 1) / 2.

(** ** Transform type *)
Definition IDTX : Z := 9.
Definition inter_inv_set1 : list Z := [9; 10; 11; 12; 13; 14; 15; 0; 1; 2; 4; 5; 3; 6; 7; 8].
Definition inter_inv_set2 : list Z := [9; 10; 11; 0; 1; 2; 4; 5; 3; 6; 7; 8].
Definition inter_inv_set3 : list Z := [9; 0].
Definition intra_inv_set1 : list Z := [9; 0; 10; 11; 3; 1; 2].
Definition intra_inv_set2 : list Z := [9; 0; 3; 1; 2].
Inductive txset := DctOnly | Inter1 | Inter2 | Inter3 | Intra1 | Intra2.
Definition spec_tx_set (wl hl : Z) (is_inter reduced : bool) : txset :=
  let sq := Z.min wl hl in let up := Z.max wl hl in
  if up =? 6 then DctOnly
  else if is_inter then
    if reduced || (up =? 5) then Inter3 else if sq =? 4 then Inter2 else Inter1
  else if up =? 5 then DctOnly
  else if reduced then Intra2
  else if sq =? 4 then Intra2 else Intra1.
Definition lookup (l : list Z) (i : Z) : Z := nth (Z.to_nat i) l 0.
(** with a quantizer index above 0, as always in this encoder *)
Definition read_tx_type (wl hl mode : Z) (is_inter reduced : bool) : reader Z :=
  let sq := sqr_of wl hl in
  match spec_tx_set wl hl is_inter reduced with
  | DctOnly => ret 0
  | Inter1 => rd s <- rsym "inter_tx_1_cdf" [sq] 16; ret (lookup inter_inv_set1 s)
  | Inter2 => rd s <- rsym "inter_tx_2_cdf" [sq] 12; ret (lookup inter_inv_set2 s)
  | Inter3 => rd s <- rsym "inter_tx_3_cdf" [sq] 2; ret (lookup inter_inv_set3 s)
  | Intra1 => rd s <- rsym "intra_tx_1_cdf" [sq; mode] 7; ret (lookup intra_inv_set1 s)
  | Intra2 => rd s <- rsym "intra_tx_2_cdf" [sq; mode] 5; ret (lookup intra_inv_set2 s)
  end.
(** the types that can be sent (or need not be) *)
Definition type_allowed (wl hl : Z) (is_inter reduced : bool) (ty : Z) : Prop :=
  match spec_tx_set wl hl is_inter reduced with
  | DctOnly => ty = 0
  | Inter1 => In ty inter_inv_set1
  | Inter2 => In ty inter_inv_set2
  | Inter3 => In ty inter_inv_set3
  | Intra1 => In ty intra_inv_set1
  | Intra2 => In ty intra_inv_set2
  end.

(** get_tx_class: 0 two-dimensional, 1 horizontal, 2 vertical *)
Definition class_of (ty : Z) : Z :=
  if (ty =? 10) || (ty =? 12) || (ty =? 14) then 2
  else if (ty =? 11) || (ty =? 13) || (ty =? 15) then 1 else 0.

(** ** End of block *)
Definition eob_pt_table (m : Z) : String.string :=
  match m with
  | 0 => "eob_flag_cdf16" | 1 => "eob_flag_cdf32" | 2 => "eob_flag_cdf64" | 3 => "eob_flag_cdf128"
  | 4 => "eob_flag_cdf256" | 5 => "eob_flag_cdf512" | _ => "eob_flag_cdf1024"
  end.
Fixpoint read_extra (n : nat) (eob : Z) : reader Z :=
  match n with
  | O => ret eob
  | S n => rd b <- rlit 1; read_extra n (if b =? 1 then eob + 2 ^ Z.of_nat n else eob)
  end.
Definition read_eob (wl hl cls ptype : Z) : reader Z :=
  let m := Z.min wl 5 + Z.min hl 5 - 4 in
  let ctx := if cls =? 0 then 0 else 1 in
  rd s <- rsym (eob_pt_table m) [ptype; ctx] (m + 5);
  let pt := s + 1 in
  let eob := if pt <? 2 then pt else 2 ^ (pt - 2) + 1 in
  if pt <? 3 then ret eob else
  rd x <- rsym "eob_extra_cdf" [txSzCtx wl hl; ptype; pt - 3] 2;
  read_extra (Z.to_nat (pt - 3)) (if x =? 1 then eob + 2 ^ (pt - 3) else eob).

(** ** Levels.  [q]: the array Quant, by column and row; [w], [h]: dimensions of the
    coded part *)
Definition quant := Z * Z -> Z.
Definition upd (q : quant) (p : Z * Z) (v : Z) : quant :=
  fun x => if (fst x =? fst p) && (snd x =? snd p) then v else q x.

(** Sig_Ref_Diff_Offset and Mag_Ref_Offset_With_Tx_Class: (row, column) *)
Definition sig_ref_diff_offset (cls : Z) : list (Z * Z) :=
  match cls with
  | 0 => [(0, 1); (1, 0); (1, 1); (0, 2); (2, 0)]
  | 1 => [(0, 1); (1, 0); (0, 2); (0, 3); (0, 4)]
  | _ => [(1, 0); (0, 1); (2, 0); (3, 0); (4, 0)]
  end.
Definition mag_ref_offset (cls : Z) : list (Z * Z) :=
  match cls with
  | 0 => [(0, 1); (1, 0); (1, 1)]
  | 1 => [(0, 1); (1, 0); (0, 2)]
  | _ => [(0, 1); (1, 0); (2, 0)]
  end.
Definition mag_sum (cap w h : Z) (q : quant) (p : Z * Z) (offs : list (Z * Z)) : Z :=
  fold_right Z.add 0 (map (fun o =>
    let row := snd p + fst o in let col := fst p + snd o in
    if (row <? h) && (col <? w) then Z.min (Z.abs (q (col, row))) cap else 0) offs).
(** Coeff_Base_Ctx_Offset for positions other than (0, 0), depending on the shape
    of the whole transform *)
Definition base_ctx_offset (wl hl row col : Z) : Z :=
  if (wl <? hl) && (row <? 2) then 11
  else if (hl <? wl) && (col <? 2) then 16
  else if row + col <? 2 then 1
  else if row + col <? 4 then 6
  else 21.
(** Coeff_Base_Pos_Ctx_Offset *)
Definition pos_ctx_offset (i : Z) : Z := if i =? 0 then 26 else if i =? 1 then 31 else 36.
Definition coeff_base_ctx (wl hl cls : Z) (q : quant) (p : Z * Z) : Z :=
  let w := coded_dim wl in let h := coded_dim hl in
  let ctx := Z.min ((mag_sum 3 w h q p (sig_ref_diff_offset cls) + 1) / 2) 4 in
  if cls =? 0 then
    if (fst p =? 0) && (snd p =? 0) then 0
    else ctx + base_ctx_offset wl hl (snd p) (fst p)
  else ctx + pos_ctx_offset (if cls =? 2 then snd p else fst p).
Definition coeff_base_eob_ctx (wl hl c : Z) : Z :=
  let n := coded_dim wl * coded_dim hl in
  if c =? 0 then 0 else if c <=? n / 8 then 1 else if c <=? n / 4 then 2 else 3.
Definition coeff_br_ctx (wl hl cls : Z) (q : quant) (p : Z * Z) : Z :=
  let w := coded_dim wl in let h := coded_dim hl in
  let mag := Z.min ((mag_sum 15 w h q p (mag_ref_offset cls) + 1) / 2) 6 in
  if (fst p =? 0) && (snd p =? 0) then mag
  else if (match cls with
           | 0 => (snd p <? 2) && (fst p <? 2)
           | 1 => fst p =? 0
           | _ => snd p =? 0
           end) then mag + 7 else mag + 14.

Fixpoint read_br (n : nat) (txs ptype ctx level : Z) : reader Z :=
  match n with
  | O => ret level
  | S n =>
      rd b <- rsym "coeff_br_cdf" [Z.min txs 3; ptype; ctx] 4;
      if b <? 3 then ret (level + b) else read_br n txs ptype ctx (level + b)
  end.
Definition read_level (wl hl cls ptype eob : Z) (q : quant) (c : Z) (p : Z * Z) : reader Z :=
  let txs := txSzCtx wl hl in
  rd level <- (if c =? eob - 1
               then rd s <- rsym "coeff_base_eob_cdf" [txs; ptype; coeff_base_eob_ctx wl hl c] 3; ret (s + 1)
               else rsym "coeff_base_cdf" [txs; ptype; coeff_base_ctx wl hl cls q p] 4);
  if 2 <? level then read_br 4 txs ptype (coeff_br_ctx wl hl cls q p) level else ret level.
(** from the last position of the scan to the first *)
Fixpoint read_levels (f : quant -> Z -> Z * Z -> reader Z) (c : Z) (scan : list (Z * Z)) (q : quant) : reader quant :=
  match scan with
  | [] => ret q
  | p :: scan =>
      rd q <- read_levels f (c + 1) scan q;
      rd level <- f q c p;
      ret (upd q p level)
  end.

(** Golomb codes; at most 20 length bits *)
Fixpoint read_golomb_length (fuel : nat) (n : nat) : reader nat :=
  match fuel with
  | O => fail
  | S fuel => rd b <- rlit 1; if b =? 1 then ret n else read_golomb_length fuel (S n)
  end.
Fixpoint read_golomb_bits (n : nat) (x : Z) : reader Z :=
  match n with O => ret x | S n => rd b <- rlit 1; read_golomb_bits n (2 * x + b) end.
Definition read_golomb : reader Z :=
  rd n <- read_golomb_length 20 0; read_golomb_bits n 1.

(** signs and large levels, with culLevel and dcCategory *)
Fixpoint read_signs (ptype dc_ctx : Z) (c : Z) (scan : list (Z * Z)) (q : quant) (cul dc : Z) : reader (quant * (Z * Z)) :=
  match scan with
  | [] => ret (q, (cul, dc))
  | p :: scan =>
      rd sign <- (if negb (q p =? 0) then if c =? 0 then rsym "dc_sign_cdf" [ptype; dc_ctx] 2 else rlit 1 else ret 0);
      rd level <- (if 14 <? q p then rd x <- read_golomb; ret (x + 14) else ret (q p));
      let dc := if (fst p =? 0) && (snd p =? 0) && (0 <? level) then if sign =? 1 then 1 else 2 else dc in
      let level := Z.land level 0xFFFFF in
      read_signs ptype dc_ctx (c + 1) scan (upd q p (if sign =? 1 then - level else level)) (cul + level) dc
  end.

(** get_scan *)
Definition scan_of (wl hl ty : Z) : list (Z * Z) :=
  let w := coded_dim wl in let h := coded_dim hl in
  match class_of ty with 0 => default_scan w h | 1 => col_scan w h | _ => row_scan w h end.
(** the array Quant as the specification numbers it, row by row *)
Definition raster (wl hl : Z) (q : quant) : list Z :=
  flat_map (fun r => map (fun c => q (c, r)) (upto (coded_dim wl))) (upto (coded_dim hl)).

(** ** A transform block.  What the decoder knows: plane, position (units of 4 luma
    samples from the origin of the tile), dimensions of the transform and of the
    block in this plane, prediction, and for the chroma planes the type. *)
Record geom := {
  g_plane : Z; g_x : Z; g_y : Z; g_wl : Z; g_hl : Z;
  g_inter : bool; g_mode : Z; g_pwl : Z; g_phl : Z; g_ty : Z }.
(** What it finds: type, number of coefficients, Quant *)
Definition found := (Z * Z * list Z)%type.

(** levels and dc categories of the units above and to the left *)
Definition nctx := list (Z * Z).
Definition dc_sign_of (l : nctx) : Z :=
  fold_right Z.add 0 (map (fun x => if snd x =? 1 then -1 else if snd x =? 2 then 1 else 0) l).
Definition dc_sign_ctx (above left_ : nctx) : Z :=
  let s := dc_sign_of above + dc_sign_of left_ in
  if s <? 0 then 1 else if 0 <? s then 2 else 0.
Definition max_level (l : nctx) : Z := fold_right Z.max 0 (map fst l).
Definition any_nonzero (l : nctx) : bool := existsb (fun x => negb (fst x =? 0) || negb (snd x =? 0)) l.
Definition all_zero_ctx (g : geom) (above left_ : nctx) : Z :=
  if g_plane g =? 0 then
    let top := max_level above in let lft := max_level left_ in
    if (g_pwl g =? g_wl g) && (g_phl g =? g_hl g) then 0
    else if (top =? 0) && (lft =? 0) then 1
    else if (top =? 0) || (lft =? 0) then 2 + (if 3 <? Z.max top lft then 1 else 0)
    else if Z.max top lft <=? 3 then 4
    else if Z.min top lft <=? 3 then 5
    else 6
  else
    (if any_nonzero above then 1 else 0) + (if any_nonzero left_ then 1 else 0) + 7 +
    (if 2 ^ g_wl g * 2 ^ g_hl g <? 2 ^ g_pwl g * 2 ^ g_phl g then 3 else 0).

(** coeffs() up to the update of the contexts; also culLevel and dcCategory *)
Definition read_coeffs (reduced : bool) (g : geom) (above left_ : nctx) : reader (found * (Z * Z)) :=
  let wl := g_wl g in let hl := g_hl g in
  let ptype := if 0 <? g_plane g then 1 else 0 in
  rd z <- rsym "txb_skip_cdf" [txSzCtx wl hl; all_zero_ctx g above left_] 2;
  if z =? 1 then ret ((0, 0, raster wl hl (fun _ => 0)), (0, 0)) else
  rd ty <- (if g_plane g =? 0 then read_tx_type wl hl (g_mode g) (g_inter g) reduced else ret (g_ty g));
  let cls := class_of ty in
  rd eob <- read_eob wl hl cls ptype;
  let scan := firstn (Z.to_nat eob) (scan_of wl hl ty) in
  rd q <- read_levels (read_level wl hl cls ptype eob) 0 scan (fun _ => 0);
  rd r <- read_signs ptype (dc_sign_ctx above left_) 0 scan q 0 0;
  ret ((ty, eob, raster wl hl (fst r)), (Z.min 63 (fst (snd r)), snd (snd r))).

(** ** The context arrays: by plane and position (units of 4 samples of the plane):
    AboveLevelContext and AboveDcContext, LeftLevelContext and LeftDcContext *)
Definition carr := Z -> Z -> Z * Z.
Record dctx := { dc_above : carr; dc_left : carr }.
Definition set_range (a : carr) (plane from to : Z) (v : Z * Z) : carr :=
  fun p i => if (p =? plane) && (from <=? i) && (i <? to) then v else a p i.
Definition sub (d plane : Z) : Z := if 0 <? plane then d else 0.
(** the units of a transform block inside the frame *)
Definition inside (a : carr) (plane x4 n maxX4 : Z) : nctx :=
  flat_map (fun k => if x4 + k <? maxX4 then [a plane (x4 + k)] else []) (upto n).
Definition read_tx_block (W H sx sy : Z) (reduced : bool) (c : dctx) (g : geom) : reader (found * dctx) :=
  let p := g_plane g in
  let sx := sub sx p in let sy := sub sy p in
  let x4 := Z.shiftr (g_x g) sx in let y4 := Z.shiftr (g_y g) sy in
  let w4 := 2 ^ (g_wl g - 2) in let h4 := 2 ^ (g_hl g - 2) in
  let maxX4 := Z.shiftr (W + sx) sx in let maxY4 := Z.shiftr (H + sy) sy in
  rd r <- read_coeffs reduced g (inside (dc_above c) p x4 w4 maxX4) (inside (dc_left c) p y4 h4 maxY4);
  ret (fst r,
       {| dc_above := set_range (dc_above c) p x4 (x4 + w4) (snd r);
          dc_left := set_range (dc_left c) p y4 (y4 + h4) (snd r) |}).

(** reset_block_context *)
Record skgeom := { k_x : Z; k_y : Z; k_w : Z; k_h : Z; k_chroma : bool }.
Definition reset_one (sx sy : Z) (g : skgeom) (c : dctx) (p : Z) : dctx :=
  let sx := sub sx p in let sy := sub sy p in
  {| dc_above := set_range (dc_above c) p (Z.shiftr (k_x g) sx) (Z.shiftr (k_x g + k_w g - 1) sx + 1) (0, 0);
     dc_left := set_range (dc_left c) p (Z.shiftr (k_y g) sy) (Z.shiftr (k_y g + k_h g - 1) sy + 1) (0, 0) |}.
Definition reset_block_context (sx sy : Z) (c : dctx) (g : skgeom) : dctx :=
  fold_left (reset_one sx sy g) (if k_chroma g then [0; 1; 2] else [0]) c.

Inductive gitem := GTx (g : geom) | GSkip (g : skgeom).
Fixpoint read_items (W H sx sy : Z) (reduced : bool) (c : dctx) (l : list gitem) : reader (list found * dctx) :=
  match l with
  | [] => ret ([], c)
  | GTx g :: l =>
      rd r <- read_tx_block W H sx sy reduced c g;
      rd s <- read_items W H sx sy reduced (snd r) l;
      ret (fst r :: fst s, snd s)
  | GSkip g :: l => read_items W H sx sy reduced (reset_block_context sx sy c g) l
  end.
(** rows of superblocks, each starting with clear_left_context *)
Fixpoint read_rows (W H sx sy : Z) (reduced : bool) (c : dctx) (rows : list (list gitem)) : reader (list (list found)) :=
  match rows with
  | [] => ret []
  | r :: rows =>
      rd x <- read_items W H sx sy reduced {| dc_above := dc_above c; dc_left := fun _ _ => (0, 0) |} r;
      rd y <- read_rows W H sx sy reduced (snd x) rows;
      ret (fst x :: y)
  end.
Definition read_tile (W H sx sy : Z) (reduced : bool) (rows : list (list gitem)) : reader (list (list found)) :=
  read_rows W H sx sy reduced {| dc_above := fun _ _ => (0, 0); dc_left := fun _ _ => (0, 0) |} rows.
