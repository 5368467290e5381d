(** Coefficient coding: write_coeffs_lv_map and what it calls
    (/repo/src/context/block_unit.rs and /repo/src/context/transform_unit.rs).

    Symbols and bits are the events of Sym.v; the index lists of the events are
    the indices into the CDF arrays of CDFContext. *)
From Verif Require Export Base Sym LogExp_model Quant_model.
Open Scope string_scope.
Open Scope Z_scope.
Open Scope list_scope.

(** ** Tables *)

(** [TxSize::sqr], [TxSize::sqr_up] (/repo/src/transform/mod.rs:219-239), in the
    order of the enumeration *)
Definition tx_sqr : list Z := [0; 1; 2; 3; 4; 0; 0; 1; 1; 2; 2; 3; 3; 0; 0; 1; 1; 2; 2].
Definition tx_sqr_up : list Z := [0; 1; 2; 3; 4; 1; 1; 2; 2; 3; 3; 4; 4; 2; 2; 3; 3; 4; 4].
(** [tx_type_to_class] (transform_unit.rs:272-289): 2D 0, HORIZ 1, VERT 2 *)
Definition tx_type_to_class : list Z := [0; 0; 0; 0; 0; 0; 0; 0; 0; 0; 2; 1; 2; 1; 2; 1].
(** [eob_to_pos_small], [eob_to_pos_large], [k_eob_group_start],
    [k_eob_offset_bits] (transform_unit.rs:291-310) *)
Definition eob_to_pos_small : list Z :=
  [0; 1; 2; 3; 3; 4; 4; 4; 4; 5; 5; 5; 5; 5; 5; 5; 5;
   6; 6; 6; 6; 6; 6; 6; 6; 6; 6; 6; 6; 6; 6; 6; 6].
Definition eob_to_pos_large : list Z := [6; 7; 8; 8; 9; 9; 9; 9; 10; 10; 10; 10; 10; 10; 10; 10; 11].
Definition k_eob_group_start : list Z := [0; 1; 2; 3; 5; 9; 17; 33; 65; 129; 257; 513].
Definition k_eob_offset_bits : list Z := [0; 0; 0; 1; 2; 3; 4; 5; 6; 7; 8; 9].
(** [av1_nz_map_ctx_offset] (transform_unit.rs:316-468) *)
Definition av1_nz_map_ctx_offset : list (list (list Z)) :=
  [[[0; 1; 6; 6; 0]; [1; 6; 6; 21; 0]; [6; 6; 21; 21; 0]; [6; 21; 21; 21; 0]; [0; 0; 0; 0; 0]];
   [[0; 1; 6; 6; 21]; [1; 6; 6; 21; 21]; [6; 6; 21; 21; 21]; [6; 21; 21; 21; 21]; [21; 21; 21; 21; 21]];
   [[0; 1; 6; 6; 21]; [1; 6; 6; 21; 21]; [6; 6; 21; 21; 21]; [6; 21; 21; 21; 21]; [21; 21; 21; 21; 21]];
   [[0; 1; 6; 6; 21]; [1; 6; 6; 21; 21]; [6; 6; 21; 21; 21]; [6; 21; 21; 21; 21]; [21; 21; 21; 21; 21]];
   [[0; 1; 6; 6; 21]; [1; 6; 6; 21; 21]; [6; 6; 21; 21; 21]; [6; 21; 21; 21; 21]; [21; 21; 21; 21; 21]];
   [[0; 11; 11; 11; 0]; [11; 11; 11; 11; 0]; [6; 6; 21; 21; 0]; [6; 21; 21; 21; 0]; [21; 21; 21; 21; 0]];
   [[0; 16; 6; 6; 21]; [16; 16; 6; 21; 21]; [16; 16; 21; 21; 21]; [16; 16; 21; 21; 21]; [0; 0; 0; 0; 0]];
   [[0; 11; 11; 11; 11]; [11; 11; 11; 11; 11]; [6; 6; 21; 21; 21]; [6; 21; 21; 21; 21]; [21; 21; 21; 21; 21]];
   [[0; 16; 6; 6; 21]; [16; 16; 6; 21; 21]; [16; 16; 21; 21; 21]; [16; 16; 21; 21; 21]; [16; 16; 21; 21; 21]];
   [[0; 11; 11; 11; 11]; [11; 11; 11; 11; 11]; [6; 6; 21; 21; 21]; [6; 21; 21; 21; 21]; [21; 21; 21; 21; 21]];
   [[0; 16; 6; 6; 21]; [16; 16; 6; 21; 21]; [16; 16; 21; 21; 21]; [16; 16; 21; 21; 21]; [16; 16; 21; 21; 21]];
   [[0; 11; 11; 11; 11]; [11; 11; 11; 11; 11]; [6; 6; 21; 21; 21]; [6; 21; 21; 21; 21]; [21; 21; 21; 21; 21]];
   [[0; 16; 6; 6; 21]; [16; 16; 6; 21; 21]; [16; 16; 21; 21; 21]; [16; 16; 21; 21; 21]; [16; 16; 21; 21; 21]];
   [[0; 11; 11; 11; 0]; [11; 11; 11; 11; 0]; [6; 6; 21; 21; 0]; [6; 21; 21; 21; 0]; [21; 21; 21; 21; 0]];
   [[0; 16; 6; 6; 21]; [16; 16; 6; 21; 21]; [16; 16; 21; 21; 21]; [16; 16; 21; 21; 21]; [0; 0; 0; 0; 0]];
   [[0; 11; 11; 11; 11]; [11; 11; 11; 11; 11]; [6; 6; 21; 21; 21]; [6; 21; 21; 21; 21]; [21; 21; 21; 21; 21]];
   [[0; 16; 6; 6; 21]; [16; 16; 6; 21; 21]; [16; 16; 21; 21; 21]; [16; 16; 21; 21; 21]; [16; 16; 21; 21; 21]];
   [[0; 11; 11; 11; 11]; [11; 11; 11; 11; 11]; [6; 6; 21; 21; 21]; [6; 21; 21; 21; 21]; [21; 21; 21; 21; 21]];
   [[0; 16; 6; 6; 21]; [16; 16; 6; 21; 21]; [16; 16; 21; 21; 21]; [16; 16; 21; 21; 21]; [16; 16; 21; 21; 21]]].
(** [nz_map_ctx_offset_1d] (transform_unit.rs:475-508) *)
Definition nz_map_ctx_offset_1d : list Z := 26 :: 31 :: repeat 36 30.

(** [num_tx_set], [av1_tx_used], [tx_set_index_intra], [tx_set_index_inter],
    [av1_tx_ind] (transform_unit.rs:34-60) *)
Definition num_tx_set : list Z := [1; 2; 5; 7; 12; 16].
Definition av1_tx_used : list (list Z) :=
  [[1; 0; 0; 0; 0; 0; 0; 0; 0; 0; 0; 0; 0; 0; 0; 0];
   [1; 0; 0; 0; 0; 0; 0; 0; 0; 1; 0; 0; 0; 0; 0; 0];
   [1; 1; 1; 1; 0; 0; 0; 0; 0; 1; 0; 0; 0; 0; 0; 0];
   [1; 1; 1; 1; 0; 0; 0; 0; 0; 1; 1; 1; 0; 0; 0; 0];
   [1; 1; 1; 1; 1; 1; 1; 1; 1; 1; 1; 1; 0; 0; 0; 0];
   [1; 1; 1; 1; 1; 1; 1; 1; 1; 1; 1; 1; 1; 1; 1; 1]].
Definition tx_set_index_intra : list Z := [0; -1; 2; 1; -1; -1].
Definition tx_set_index_inter : list Z := [0; 3; -1; -1; 2; 1].
Definition av1_tx_ind : list (list Z) :=
  [[0; 0; 0; 0; 0; 0; 0; 0; 0; 0; 0; 0; 0; 0; 0; 0];
   [1; 0; 0; 0; 0; 0; 0; 0; 0; 0; 0; 0; 0; 0; 0; 0];
   [1; 3; 4; 2; 0; 0; 0; 0; 0; 0; 0; 0; 0; 0; 0; 0];
   [1; 5; 6; 4; 0; 0; 0; 0; 0; 0; 2; 3; 0; 0; 0; 0];
   [3; 4; 5; 8; 6; 7; 9; 10; 11; 0; 1; 2; 0; 0; 0; 0];
   [7; 8; 9; 12; 10; 11; 13; 14; 15; 0; 1; 2; 3; 4; 5; 6]].

(** A value that may be a panic, then more writing. *)
Definition wbind {A} (o : option A) (k : A -> writer) : writer :=
  match o with Some a => k a | None => None end.
Notation "'wdo' x <- e ; k" := (wbind e (fun x => k))
  (at level 200, x name, e at level 100, k at level 200).

(** ** Transform type *)

(** [get_tx_set] (transform_unit.rs:126-151).  Sets: DCTONLY 0, INTER_3 1,
    INTRA_2 2, INTRA_1 3, INTER_2 4, INTER_1 5 (/repo/src/transform/mod.rs:279-294). *)
Definition get_tx_set (t : Z) (is_inter reduced : bool) : option Z :=
  do up <- at_ tx_sqr_up t; do sq <- at_ tx_sqr t;
  Some (if 3 <? up then 0
        else if is_inter then
          if reduced || (up =? 3) then 1 else if sq =? 2 then 4 else 5
        else if up =? 3 then 0
        else if reduced || (sq =? 2) then 2 else 3).

(** [write_tx_type] (transform_unit.rs:530-576) *)
Definition write_tx_type (t ty y_mode : Z) (is_inter reduced : bool) : writer :=
  wdo sq <- at_ tx_sqr t;
  wdo set <- get_tx_set t is_inter reduced;
  wdo n <- at_ num_tx_set set;
  wif (1 <? n) (
    wdo ix <- at_ (if is_inter then tx_set_index_inter else tx_set_index_intra) set;
    wdo row <- at_ av1_tx_used set; wdo used <- at_ row ty;
    wdo ind <- at_ av1_tx_ind set; wdo s <- at_ ind ty;
    wguard (0 <? ix) (wguard (negb (used =? 0))
      (if is_inter then
         if ix =? 1 then wsym "inter_tx_1_cdf" [sq] 16 s
         else if ix =? 2 then wsym "inter_tx_2_cdf" [sq] 12 s
         else wsym "inter_tx_3_cdf" [sq] 2 s
       else
         if ix =? 1 then wsym "intra_tx_1_cdf" [sq; y_mode] 7 s
         else wsym "intra_tx_2_cdf" [sq; y_mode] 5 s))).

(** ** End of block *)

(** [get_eob_pos_token] (transform_unit.rs:807-819) *)
Definition get_eob_pos_token (eob : Z) : option (Z * Z) :=
  do t <- (if eob <? 33 then at_ eob_to_pos_small eob
           else at_ eob_to_pos_large (Z.min ((eob - 1) / 32) 16));
  do start <- at_ k_eob_group_start t;
  if start <=? eob then Some (t, eob - start) else None.

(** the bits of [v] below [n], most significant first, as raw bits *)
Fixpoint wbits (n : nat) (v : Z) : writer :=
  match n with
  | O => wnil
  | S n => wlit 1 (v / 2 ^ Z.of_nat n mod 2) +++ wbits n v
  end.

(** [encode_eob] (block_unit.rs:1861-1914) *)
Definition eob_table (m : Z) : String.string * Z :=
  if m =? 0 then ("eob_flag_cdf16", 5) else if m =? 1 then ("eob_flag_cdf32", 6)
  else if m =? 2 then ("eob_flag_cdf64", 7) else if m =? 3 then ("eob_flag_cdf128", 8)
  else if m =? 4 then ("eob_flag_cdf256", 9) else if m =? 5 then ("eob_flag_cdf512", 10)
  else ("eob_flag_cdf1024", 11).
Definition encode_eob (eob wl hl cls txs_ctx ptype : Z) : writer :=
  wdo te <- get_eob_pos_token eob;
  let pt := fst te in let extra := snd te in
  let m := wl + hl - 4 in
  let ectx := if cls =? 0 then 0 else 1 in
  wsym (fst (eob_table m)) [ptype; ectx] (snd (eob_table m)) (pt - 1) +++
  wdo ob <- at_ k_eob_offset_bits pt;
  wif (0 <? ob) (
    wsym "eob_extra_cdf" [txs_ctx; ptype; pt - 3] 2 (extra / 2 ^ (ob - 1) mod 2) +++
    wbits (Z.to_nat (ob - 1)) extra).

(** ** Levels and their contexts *)

(** [txb_init_levels] (transform_unit.rs:779-792) with the slices of
    write_coeffs_lv_map (block_unit.rs:1831-1834): entry [i] of the padded,
    column-major array of levels.  The buffer has TX_PAD_2D = 1384 entries of
    which the first two columns are cut off; entries not written are 0. *)
Definition level_at (h : Z) (coeffs : list Z) (i : Z) : option Z :=
  let stride := h + 4 in
  if (0 <=? i) && (i <? 1384 - 2 * stride) then
    let c := i / stride in let r := i mod stride in
    Some (if (c <? zlen coeffs / h) && (r <? h)
          then Z.min (Z.abs (nth (Z.to_nat (c * h + r)) coeffs 0)) 127 else 0)
  else None.

(** [get_nz_mag] (transform_unit.rs:821-844); [i] is where the slice starts *)
Definition get_nz_mag (lv : Z -> option Z) (i bhl cls : Z) : option Z :=
  do a <- lv (i + 1);
  do b <- lv (i + (2 ^ bhl + 4));
  if cls =? 0 then
    do c <- lv (i + (2 ^ bhl + 4 + 1)); do d <- lv (i + 2); do e <- lv (i + (2 * 2 ^ bhl + 8));
    Some (Z.min 3 a + Z.min 3 b + Z.min 3 c + Z.min 3 d + Z.min 3 e)
  else if cls =? 2 then
    do c <- lv (i + 2); do d <- lv (i + 3); do e <- lv (i + 4);
    Some (Z.min 3 a + Z.min 3 b + Z.min 3 c + Z.min 3 d + Z.min 3 e)
  else
    do c <- lv (i + (2 * 2 ^ bhl + 8)); do d <- lv (i + (3 * 2 ^ bhl + 12));
    do e <- lv (i + (4 * 2 ^ bhl + 16));
    Some (Z.min 3 a + Z.min 3 b + Z.min 3 c + Z.min 3 d + Z.min 3 e).

(** [get_nz_map_ctx_from_stats] (transform_unit.rs:846-883) *)
Definition get_nz_map_ctx_from_stats (stats i bhl t cls : Z) : option Z :=
  if Z.lor cls i =? 0 then Some 0 else
  let col := i / 2 ^ bhl in
  let row := i - col * 2 ^ bhl in
  let ctx := Z.min ((stats + 1) / 2) 4 in
  do off <- (if cls =? 0 then
               do tb <- at_ av1_nz_map_ctx_offset t;
               do r <- at_ tb (Z.min row 4); at_ r (Z.min col 4)
             else if cls =? 1 then at_ nz_map_ctx_offset_1d col
             else at_ nz_map_ctx_offset_1d row);
  Some (ctx + off).

(** [get_nz_map_ctx] (transform_unit.rs:885-914) *)
Definition get_nz_map_ctx (lv : Z -> option Z) (i bhl area k : Z) (is_eob : bool) (t cls : Z) : option Z :=
  if is_eob then
    Some (if k =? 0 then 0 else if k <=? area / 8 then 1 else if k <=? area / 4 then 2 else 3)
  else
    do stats <- get_nz_mag lv (i + i / 2 ^ bhl * 4) bhl cls;
    get_nz_map_ctx_from_stats stats i bhl t cls.

(** [get_br_ctx] (transform_unit.rs:938-988); the sum of the first two levels is
    formed in u8 *)
Definition get_br_ctx (lv : Z -> option Z) (i bhl cls : Z) : option Z :=
  let col := i / 2 ^ bhl in
  let row := i - col * 2 ^ bhl in
  let stride := 2 ^ bhl + 4 in
  let pos := col * stride + row in
  do a <- lv (pos + 1);
  do b <- lv (pos + stride);
  if 255 <? a + b then None else
  do c <- lv (if cls =? 0 then pos + stride + 1 else if cls =? 1 then pos + stride * 2 else pos + 2);
  let mag := Z.min ((a + b + c + 1) / 2) 6 in
  Some (if i =? 0 then mag
        else if (if cls =? 0 then (row <? 2) && (col <? 2) else if cls =? 1 then col =? 0 else row =? 0)
        then mag + 7 else mag + 14).

(** the loop over [idx] in [encode_coeffs] (block_unit.rs:1962-1977) *)
Fixpoint br_loop (fuel : nat) (idx base txs_ctx ptype ctx : Z) : writer :=
  match fuel with
  | O => None
  | S fuel =>
      if 12 <=? idx then wnil else
      let k := Z.min (base - idx) 3 in
      wsym "coeff_br_cdf" [Z.min txs_ctx 3; ptype; ctx] 4 k +++
      if k <? 3 then wnil else br_loop fuel (idx + 3) base txs_ctx ptype ctx
  end.

(** one coefficient of [encode_coeffs] (block_unit.rs:1940-1979).  The context
    was computed for all of them beforehand by [get_nz_map_contexts]
    (transform_unit.rs:916-936) from the same levels. *)
Definition encode_coeff (lv : Z -> option Z) (bhl area eob t cls txs_ctx ptype : Z) (k pos v : Z) : writer :=
  let level := Z.abs v in
  wdo ctx <- get_nz_map_ctx lv pos bhl area k (k =? eob - 1) t cls;
  (if k =? eob - 1 then
     wguard (0 <? level) (wsym "coeff_base_eob_cdf" [txs_ctx; ptype; ctx] 3 (Z.min level 3 - 1))
   else wsym "coeff_base_cdf" [txs_ctx; ptype; ctx] 4 (Z.min level 3)) +++
  wif (2 <? level) (
    wdo bctx <- get_br_ctx lv pos bhl cls;
    br_loop 5 0 (level - 3) txs_ctx ptype bctx).

(** the loop of [encode_coeffs], last coefficient first: [l] holds the position
    and value of coefficients number [k], [k + 1], ... *)
Fixpoint encode_coeffs (f : Z -> Z -> Z -> writer) (k : Z) (l : list (Z * Z)) : writer :=
  match l with
  | [] => wnil
  | pv :: l => encode_coeffs f (k + 1) l +++ f k (fst pv) (snd pv)
  end.

(** [write_golomb] (/repo/src/ec.rs:609-620) *)
Fixpoint wzeros (n : nat) : writer :=
  match n with O => wnil | S n => wlit 1 0 +++ wzeros n end.
Definition write_golomb (level : Z) : writer :=
  let x := level + 1 in
  let len := Z.log2 x + 1 in
  wzeros (Z.to_nat (len - 1)) +++ wbits (Z.to_nat len) x.

(** [encode_coeff_signs] (block_unit.rs:1983-2007) *)
Fixpoint encode_coeff_signs (ptype dc_ctx : Z) (k : Z) (vs : list Z) : writer :=
  match vs with
  | [] => wnil
  | v :: vs =>
      wif (negb (v =? 0)) (
        let sign := if v <? 0 then 1 else 0 in
        (if k =? 0 then wsym "dc_sign_cdf" [ptype; dc_ctx] 2 sign else wlit 1 sign) +++
        wif (14 <? Z.abs v) (write_golomb (Z.abs v - 15))) +++
      encode_coeff_signs ptype dc_ctx (k + 1) vs
  end.

(** the new value of the coefficient contexts (block_unit.rs:1805, 2009-2014 and
    [set_dc_sign], 325-331) *)
Definition new_cul_level (vs : list Z) : option Z :=
  let cul := Z.min 63 (fold_right Z.add 0 (map Z.abs vs)) in
  do dc <- at_ vs 0;
  Some (u8 (if dc <? 0 then Z.lor cul 64 else if 0 <? dc then cul + 128 else cul)).

(** ** Contexts from the neighbours *)

(** [get_txb_ctx] (block_unit.rs:442-526).  [above] and [left_] are the two slices
    of contexts; the plane block has dimensions [2 ^ pwl] and [2 ^ phl]. *)
Definition signs3 : list Z := [0; -1; 1].
Definition dc_sign_contexts : list Z := repeat 1 32 ++ 0 :: repeat 2 32.
Definition skip_contexts : list (list Z) :=
  [[1; 2; 2; 2; 3]; [1; 4; 4; 4; 5]; [1; 4; 4; 4; 5]; [1; 4; 4; 4; 5]; [1; 4; 4; 4; 6]].
Fixpoint sum_signs (l : list Z) : option Z :=
  match l with
  | [] => Some 0
  | x :: l => do s <- at_ signs3 (x / 64); do r <- sum_signs l; Some (s + r)
  end.
Definition orall (l : list Z) : Z := fold_left Z.lor l 0.
Definition get_txb_ctx (pwl phl wl hl plane : Z) (above left_ : list Z) : option (Z * Z) :=
  do sa <- sum_signs above; do sl <- sum_signs left_;
  do dc <- at_ dc_sign_contexts (sa + sl + 32);
  do sk <- (if plane =? 0 then
              if (pwl =? wl) && (phl =? hl) then Some 0 else
              let top := Z.land (orall above) 63 in
              let lft := Z.land (orall left_) 63 in
              let mx := Z.min (Z.lor top lft) 4 in
              let mn := Z.min (Z.min top lft) 4 in
              do row <- at_ skip_contexts mn; at_ row mx
            else
              let top := orall above in let lft := orall left_ in
              let base := (if top =? 0 then 0 else 1) + (if lft =? 0 then 0 else 1) in
              Some (base + (if wl + hl <? pwl + phl then 10 else 7)));
  Some (sk, dc).

(** ** One transform block *)

(** A call of write_coeffs_lv_map.  [tb_x], [tb_y]: position in the tile in units
    of 4 luma samples.  [tb_pwl], [tb_phl]: dimensions of the block in this plane. *)
Record tblock := {
  tb_plane : Z; tb_x : Z; tb_y : Z; tb_t : Z; tb_ty : Z;
  tb_inter : bool; tb_mode : Z; tb_pwl : Z; tb_phl : Z;
  tb_eob : Z; tb_coeffs : list Z }.

(** [write_coeffs_lv_map] (block_unit.rs:1783-1859) up to the context update; the
    second component is the new context value *)
Definition write_coeffs (reduced : bool) (b : tblock) (above left_ : list Z) : option (list ev * Z) :=
  let eob := tb_eob b in
  do wh <- at_ tx_dims (tb_t b);
  let wl := fst wh in let hl := snd wh in
  do cwh <- at_ tx_dims (coded_tx (tb_t b));
  let bhl := snd cwh in
  let h := 2 ^ bhl in
  let area := 2 ^ (fst cwh + snd cwh) in
  do so <- scan_order (tb_t b) (tb_ty b);
  if zlen (fst so) <? eob then None else
  let scan := firstn (Z.to_nat eob) (fst so) in
  if existsb (fun p => zlen (tb_coeffs b) <=? p) scan then None else
  let vs := map (fun p => nth (Z.to_nat p) (tb_coeffs b) 0) scan in
  do sq <- at_ tx_sqr (tb_t b); do up <- at_ tx_sqr_up (tb_t b);
  let txs_ctx := (sq + up + 1) / 2 in
  do cx <- get_txb_ctx (tb_pwl b) (tb_phl b) wl hl (tb_plane b) above left_;
  let skip := wsym "txb_skip_cdf" [txs_ctx; fst cx] 2 (if eob =? 0 then 1 else 0) in
  if eob =? 0 then do e <- skip; Some (e, 0) else
  let lv := level_at h (tb_coeffs b) in
  do cls <- at_ tx_type_to_class (tb_ty b);
  let ptype := if tb_plane b =? 0 then 0 else 1 in
  do e <- skip +++
    wif (tb_plane b =? 0) (write_tx_type (tb_t b) (tb_ty b) (tb_mode b) (tb_inter b) reduced) +++
    encode_eob eob wl hl cls txs_ctx ptype +++
    encode_coeffs (encode_coeff lv bhl area eob (tb_t b) cls txs_ctx ptype) 0 (combine scan vs) +++
    encode_coeff_signs ptype (snd cx) 0 vs;
  do cul <- new_cul_level vs;
  Some (e, cul).

(** ** Context arrays of a tile *)

(** [above_coeff_context] and [left_coeff_context] of BlockContext
    (block_unit.rs:233-250): by plane and index *)
Record cctx := { cc_above : Z -> Z -> Z; cc_left : Z -> Z -> Z }.
(** a loop storing [v] in [n] entries from [i] on *)
Definition fill (a : Z -> Z -> Z) (plane i n v : Z) : Z -> Z -> Z :=
  fun p j => if (p =? plane) && (i <=? j) && (j <? i + n) then v else a p j.
Definition slice (a : Z -> Z -> Z) (plane i n : Z) : list Z :=
  map (fun k => a plane (i + Z.of_nat k)) (seq 0 (Z.to_nat n)).
(** [y_in_sb] with 64x64 superblocks (MIB_SIZE 16) *)
Definition y_in_sb (y : Z) : Z := y mod 16.
Definition dec_of (d plane : Z) : Z := if plane =? 0 then 0 else d.

(** One call within encode_tx_block: the clipping to the frame
    (/repo/src/encoder.rs:1561-1566; [W], [H] are the columns and rows of 4x4
    units between the origin of the tile and the end of the frame, [xd], [yd] the
    chroma shifts), the slices taken by get_txb_ctx (block_unit.rs:457-460) and
    [set_coeff_context] (block_unit.rs:333-348). *)
Definition tx_block (W H xd yd : Z) (reduced : bool) (c : cctx) (b : tblock) : option (list ev * cctx) :=
  let p := tb_plane b in
  let xd := dec_of xd p in let yd := dec_of yd p in
  do wh <- at_ tx_dims (tb_t b);
  let w := 2 ^ fst wh in let h := 2 ^ snd wh in
  let cw := Z.min ((W - tb_x b) * 4 / 2 ^ xd) w in
  let ch := Z.min ((H - tb_y b) * 4 / 2 ^ yd) h in
  let ax := tb_x b / 2 ^ xd in
  let ly := y_in_sb (tb_y b) / 2 ^ yd in
  do r <- write_coeffs reduced b (slice (cc_above c) p ax (cw / 4)) (slice (cc_left c) p ly (ch / 4));
  Some (fst r,
        {| cc_above := fill (cc_above c) p ax (w / 4) (snd r);
           cc_left := fill (cc_left c) p ly (h / 4) (snd r) |}).

(** A block without coefficients: [reset_skip_context]
    (/repo/src/context/partition_unit.rs:434-469).  The dimensions are in units of 4
    samples; [sk_chroma] says whether the planes 1 and 2 are present, which the
    code decides by the block size or [has_chroma]. *)
Record skblock := { sk_x : Z; sk_y : Z; sk_w : Z; sk_h : Z; sk_chroma : bool }.
(** width of the chroma block ([subsampled_size], /repo/src/partition.rs:337-382) *)
Definition sub_units (n d : Z) : Z := Z.max (n / 2 ^ d) 1.
Definition reset_plane (xd yd : Z) (b : skblock) (c : cctx) (p : Z) : cctx :=
  let xd := dec_of xd p in let yd := dec_of yd p in
  {| cc_above := fill (cc_above c) p (sk_x b / 2 ^ xd) (sub_units (sk_w b) xd) 0;
     cc_left := fill (cc_left c) p (y_in_sb (sk_y b) / 2 ^ yd) (sub_units (sk_h b) yd) 0 |}.
Definition reset_skip_context (xd yd : Z) (c : cctx) (b : skblock) : cctx :=
  fold_left (reset_plane xd yd b) (if sk_chroma b then [0; 1; 2] else [0]) c.

Inductive titem := TTx (b : tblock) | TSkip (b : skblock).

(** the blocks of a row of superblocks in coding order *)
Fixpoint encode_items (W H xd yd : Z) (reduced : bool) (c : cctx) (l : list titem) : option (list ev * cctx) :=
  match l with
  | [] => Some ([], c)
  | TTx b :: l =>
      do r <- tx_block W H xd yd reduced c b;
      do s <- encode_items W H xd yd reduced (snd r) l;
      Some (fst r ++ fst s, snd s)
  | TSkip b :: l => encode_items W H xd yd reduced (reset_skip_context xd yd c b) l
  end.

(** the rows of superblocks of a tile (encoder.rs:3484-3490): the left contexts are
    cleared at the start of each ([reset_left_contexts], block_unit.rs:394-401) *)
Fixpoint encode_rows (W H xd yd : Z) (reduced : bool) (c : cctx) (rows : list (list titem)) : writer :=
  match rows with
  | [] => wnil
  | r :: rows =>
      wdo x <- encode_items W H xd yd reduced {| cc_above := cc_above c; cc_left := fun _ _ => 0 |} r;
      Some (fst x) +++ encode_rows W H xd yd reduced (snd x) rows
  end.
Definition encode_tile (W H xd yd : Z) (reduced : bool) (rows : list (list titem)) : writer :=
  encode_rows W H xd yd reduced {| cc_above := fun _ _ => 0; cc_left := fun _ _ => 0 |} rows.
