(** Model of /repo/src/util/logexp.rs: fixed point binary logarithm and
    exponential; and of the checked integer arithmetic used by the numeric
    models. *)
From Verif Require Import Base.

(** Rust [as iN] of an integer *)
Definition sw (n x : Z) : Z := (x + 2 ^ (n - 1)) mod 2 ^ n - 2 ^ (n - 1).

(** Arithmetic in a machine type; [None]: overflow (a panic with overflow checks) *)
Definition i32c (x : Z) : option Z := if (- 2 ^ 31 <=? x) && (x <? 2 ^ 31) then Some x else None.
Definition i64c (x : Z) : option Z := if (- 2 ^ 63 <=? x) && (x <? 2 ^ 63) then Some x else None.
Definition u32c (x : Z) : option Z := if (0 <=? x) && (x <? 2 ^ 32) then Some x else None.
Notation "'do' x <- a ; b" := (match a with Some x => b | None => None end)
  (at level 200, x name, a at level 100, b at level 200).

(** [q57] (logexp.rs:11-14) with its debug assertion *)
Definition q57 (v : Z) : option Z := if (-64 <=? v) && (v <=? 63) then Some (v * 2 ^ 57) else None.

(** ATANH_LOG2 (logexp.rs:17-29) *)
Definition atanh_log2 : list Z := [
  0x32B803473F7AD0F4; 0x2F2A71BD4E25E916; 0x2E68B244BB93BA06;
  0x2E39FB9198CE62E4; 0x2E2E683F68565C8F; 0x2E2B850BE2077FC1;
  0x2E2ACC58FE7B78DB; 0x2E2A9E2DE52FD5F2; 0x2E2A92A338D53EEC;
  0x2E2A8FC08F5E19B6; 0x2E2A8F07E51A485E; 0x2E2A8ED9BA8AF388;
  0x2E2A8ECE2FE7384A; 0x2E2A8ECB4D3E4B1A; 0x2E2A8ECA94940FE8;
  0x2E2A8ECA6669811D; 0x2E2A8ECA5ADEDD6A; 0x2E2A8ECA57FC347E;
  0x2E2A8ECA57438A43; 0x2E2A8ECA57155FB4; 0x2E2A8ECA5709D510;
  0x2E2A8ECA5706F267; 0x2E2A8ECA570639BD; 0x2E2A8ECA57060B92;
  0x2E2A8ECA57060008; 0x2E2A8ECA5705FD25; 0x2E2A8ECA5705FC6C;
  0x2E2A8ECA5705FC3E; 0x2E2A8ECA5705FC33; 0x2E2A8ECA5705FC30;
  0x2E2A8ECA5705FC2F; 0x2E2A8ECA5705FC2F].
Definition atanh (i : Z) : Z := nth (Z.to_nat (Z.min i 31)) atanh_log2 0.

(** [(x + mask) ^ mask] with [mask] all ones or zero *)
Definition flip (neg : bool) (x : Z) : Z := if neg then Z.lxor (x - 1) (-1) else x.

(** The rounds of [bexp64] that update [w] (logexp.rs:59-87): the index of the
    round and whether [z] is doubled after it; rounds 3 and 12 are done twice,
    undoubled the first time. *)
Definition bexp_rounds : list (Z * bool) :=
  [(0, true); (1, true); (2, true); (3, false);
   (3, true); (4, true); (5, true); (6, true); (7, true); (8, true); (9, true); (10, true); (11, true); (12, false);
   (12, true); (13, true); (14, true); (15, true); (16, true); (17, true); (18, true); (19, true); (20, true); (21, true);
   (22, true); (23, true); (24, true); (25, true); (26, true); (27, true); (28, true); (29, true); (30, true); (31, true)].
(** The rounds that update [wlo] (logexp.rs:98-114), for [ipart > 30] *)
Definition bexp_low_rounds : list (Z * bool) :=
  [(32, true); (33, true); (34, true); (35, true); (36, true); (37, true); (38, true); (39, false);
   (39, true); (40, true); (41, true); (42, true); (43, true); (44, true); (45, true); (46, true); (47, true); (48, true);
   (49, true); (50, true); (51, true); (52, true); (53, true); (54, true); (55, true); (56, true); (57, true); (58, true);
   (59, true); (60, true)].

Definition next_z (i : Z) (dbl : bool) (z : Z) : option Z :=
  do z' <- i64c (z - flip (z <? 0) (atanh i));
  if dbl then i64c (z' * 2) else Some z'.
Fixpoint bexp_high (rounds : list (Z * bool)) (w z : Z) : option (Z * Z) :=
  match rounds with
  | [] => Some (w, z)
  | (i, dbl) :: rounds =>
      do w' <- i64c (w + flip (z <? 0) (Z.shiftr w (i + 1)));
      do z' <- next_z i dbl z;
      bexp_high rounds w' z'
  end.
Fixpoint bexp_low (rounds : list (Z * bool)) (w wlo z : Z) : option Z :=
  match rounds with
  | [] => Some wlo
  | (i, dbl) :: rounds =>
      do wlo' <- i32c (wlo + sw 32 (flip (z <? 0) (Z.shiftr w i)));
      do z' <- next_z i dbl z;
      bexp_low rounds w wlo' z'
  end.

(** [bexp64] (logexp.rs:34-125) *)
Definition bexp64 (logq57 : Z) : option Z :=
  let ipart := Z.shiftr logq57 57 in
  if ipart <? 0 then Some 0
  else if 63 <=? ipart then Some 0x7FFFFFFFFFFFFFFF
  else
    do q <- q57 ipart;
    do z <- i64c (logq57 - q);
    do w <- (if z =? 0 then Some (2 ^ 62)
             else
               do wz <- bexp_high bexp_rounds 0x26A3D0E401DD846D (z * 2 ^ 5);
               do wlo <- (if 30 <? ipart then bexp_low bexp_low_rounds (fst wz) 0 (snd wz) else Some 0);
               i64c (fst wz * 2 + wlo));
    if ipart <? 62 then do w1 <- i64c (Z.shiftr w (61 - ipart) + 1); Some (Z.shiftr w1 1) else Some w.

(** The rounds of [blog64] (logexp.rs:151-170): 0..61 with 3, 12 and 39 repeated *)
Definition blog_rounds : list Z :=
  [0; 1; 2; 3; 3; 4; 5; 6; 7; 8; 9; 10; 11; 12; 12; 13; 14; 15; 16; 17; 18; 19; 20; 21; 22; 23; 24; 25; 26; 27; 28; 29;
   30; 31; 32; 33; 34; 35; 36; 37; 38; 39; 39; 40; 41; 42; 43; 44; 45; 46; 47; 48; 49; 50; 51; 52; 53; 54; 55; 56; 57;
   58; 59; 60; 61].
Fixpoint blog_loop (rounds : list Z) (x y z : Z) : option Z :=
  match rounds with
  | [] => Some z
  | i :: rounds =>
      let neg := y <? 0 in
      do z' <- i64c (z + flip neg (Z.shiftr (atanh i) i));
      let u := Z.shiftr x (i + 1) in
      do x' <- i64c (x - flip neg (Z.shiftr y (i + 1)));
      do y' <- i64c (y - flip neg u);
      blog_loop rounds x' y' z'
  end.
(** [blog64] (logexp.rs:130-174) *)
Definition blog64 (n : Z) : option Z :=
  if n <=? 0 then Some (-1)
  else
    let ipart := Z.log2 n in
    let w := if 61 <? ipart then Z.shiftr n (ipart - 61) else n * 2 ^ (61 - ipart) in
    if Z.land w (w - 1) =? 0 then q57 ipart
    else
      do x <- i64c (w + 2 ^ 61); do y <- i64c (w - 2 ^ 61);
      do z <- blog_loop blog_rounds x y 0;
      do z8 <- i64c (z + 8);
      do q <- q57 ipart;
      i64c (q + Z.shiftr z8 4).

(** [q57_to_q24] and [q24_to_q57] (logexp.rs:223-231) *)
Definition q57_to_q24 (v : Z) : Z := sw 32 (Z.shiftr (Z.shiftr v 32 + 1) 1).
Definition q24_to_q57 (v : Z) : Z := v * 2 ^ 33.

(** [bexp_q24] (logexp.rs:238-246) *)
Definition bexp_q24 (log_scale : Z) : option Z :=
  if log_scale <? 23 * 2 ^ 24 then
    do q <- q57 24; do l <- i64c (log_scale * 2 ^ 33 + q); do r <- bexp64 l;
    if r <? 2 ^ 47 - 1 then Some r else Some (2 ^ 47 - 1)
  else Some (2 ^ 47 - 1).
