(** Model of the universal codes written through the range coder
    (/repo/src/ec.rs:485-515, 609-778) as the list of coding events they
    produce, and of the matching cost functions. *)
From Verif Require Import Base EC_model.

(** One coding call: a table and the symbol coded with it. *)
Definition event : Type := source * nat.

(** [bit] (ec.rs:494-496) and [bool] with f = 16384. *)
Definition ev_bit (b : bool) : event := (Fixed [16384; 0], if b then 1%nat else 0%nat).

(** [literal] (ec.rs:506-510): for bit in (0..bits).rev() { bit(1 & (s >> bit)) } *)
Definition w_literal (bits : Z) (s : Z) : list event := map ev_bit (bits_of (Z.to_nat bits) s).

(** [write_golomb] (ec.rs:609-620).  `length = 32 - x.leading_zeros()` is
    [Z.log2 x + 1] for x > 0. *)
Definition w_golomb (level : Z) : list event :=
  let x := level + 1 in
  let length := Z.log2 x + 1 in
  repeat (ev_bit false) (Z.to_nat (length - 1)) ++ map ev_bit (bits_of (Z.to_nat length) x).

(** [write_quniform] (ec.rs:624-636) *)
Definition w_quniform (n v : Z) : list event :=
  if 1 <? n then
    let l := Z.log2 n + 1 in
    let m := 2 ^ l - n in
    if v <? m then w_literal (l - 1) v
    else w_literal (l - 1) (m + (v - m) / 2) ++ w_literal 1 (Z.land (v - m) 1)
  else [].

(** [count_quniform] (ec.rs:639-650); OD_BITRES = 3 *)
Definition c_quniform (n v : Z) : Z :=
  if 1 <? n then
    let l := Z.log2 n + 1 in
    let m := 2 ^ l - n in
    (l - 1) * 8 + (if m <=? v then 8 else 0)
  else 0.

(** [write_subexp] (ec.rs:656-679).  [None]: a u32 overflow or out of fuel. *)
Fixpoint w_subexp_loop (fuel : nat) (n k v i mk : Z) : option (list event) :=
  match fuel with
  | O => None
  | S fuel =>
      let b := if negb (i =? 0) then k + i - 1 else k in
      let a := 2 ^ b in
      if (32 <=? b) || (2 ^ 32 <=? mk + 3 * a) then None else
      if n <=? mk + 3 * a then Some (w_quniform (n - mk) (v - mk))
      else
        let t := mk + a <=? v in
        if t then
          match w_subexp_loop fuel n k v (i + 1) (mk + a) with
          | None => None
          | Some r => Some (ev_bit true :: r)
          end
        else Some (ev_bit false :: w_literal b (v - mk))
  end.
Definition w_subexp (n k v : Z) : option (list event) := w_subexp_loop 33 n k v 0 0.

(** [count_subexp] (ec.rs:684-711) *)
Fixpoint c_subexp_loop (fuel : nat) (n k v i mk bits : Z) : option Z :=
  match fuel with
  | O => None
  | S fuel =>
      let b := if negb (i =? 0) then k + i - 1 else k in
      let a := 2 ^ b in
      if (32 <=? b) || (2 ^ 32 <=? mk + 3 * a) then None else
      if n <=? mk + 3 * a then Some (bits + c_quniform (n - mk) (v - mk))
      else
        let t := mk + a <=? v in
        let bits := bits + 8 in
        if t then c_subexp_loop fuel n k v (i + 1) (mk + a) bits
        else Some (bits + b * 8)
  end.
Definition c_subexp (n k v : Z) : option Z := c_subexp_loop 33 n k v 0 0 0.

(** [recenter] (ec.rs:381-389) *)
Definition recenter (r v : Z) : Z :=
  if 2 * r <? v then v
  else if r <=? v then (v - r) * 2
  else (r - v) * 2 - 1.

(** [write_unsigned_subexp_with_ref] (ec.rs:715-721),
    [count_unsigned_subexp_with_ref] (ec.rs:730-738) *)
Definition w_unsigned_ref (v n k r : Z) : option (list event) :=
  if 2 * r <=? n then w_subexp n k (recenter r v)
  else w_subexp n k (recenter (n - 1 - r) (n - 1 - v)).
Definition c_unsigned_ref (v n k r : Z) : option Z :=
  if 2 * r <=? n then c_subexp n k (recenter r v)
  else c_subexp n k (recenter (n - 1 - r) (n - 1 - v)).

(** [write_signed_subexp_with_ref] (ec.rs:746-755),
    [count_signed_subexp_with_ref] (ec.rs:764-773) *)
Definition w_signed_ref (v low high k r : Z) : option (list event) :=
  w_unsigned_ref (v - low) (high - low) k (r - low).
Definition c_signed_ref (v low high k r : Z) : option Z :=
  c_unsigned_ref (v - low) (high - low) k (r - low).

(** Issuing events on the encoder with a store of adaptive tables. *)
Definition enc_event (wt : encoder * list (list Z)) (e : event) : encoder * list (list Z) :=
  let '(w, tables) := wt in
  let '(src, s) := e in
  (enc_store w (symbol_token s (source_table tables src)), source_update tables src s).
Definition enc_events (evs : list event) (wt : encoder * list (list Z)) := fold_left enc_event evs wt.
