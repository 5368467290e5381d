(** Model of motion vector coding: /repo/src/context/mod.rs,
    /repo/src/context/block_unit.rs, /repo/src/mc.rs. *)
From Verif Require Import Sym.
Open Scope string_scope.
Open Scope Z_scope.
Open Scope list_scope.

(** context/mod.rs:105-133 *)
Definition CLASS0_BITS : Z := 1.
Definition CLASS0_SIZE : Z := Z.shiftl 1 CLASS0_BITS.
Definition MV_CLASSES : Z := 11.
Definition MV_OFFSET_BITS : Z := MV_CLASSES + CLASS0_BITS - 2.
Definition MV_FP_SIZE : Z := 4.
Definition MV_UPP : Z := Z.shiftl 1 14.
Definition MV_LOW : Z := - Z.shiftl 1 14.

(** partition.rs:542-546 *)
Inductive precision := MV_SUBPEL_NONE | MV_SUBPEL_LOW_PRECISION | MV_SUBPEL_HIGH_PRECISION.
Definition prec_val (p : precision) : Z :=
  match p with MV_SUBPEL_NONE => -1 | MV_SUBPEL_LOW_PRECISION => 0 | MV_SUBPEL_HIGH_PRECISION => 1 end.

(** context/mod.rs:135-142: av1_get_mv_joint, with the discriminants of
    MvJointType (partition.rs:552-557) *)
Definition get_mv_joint (row col : Z) : Z :=
  if row =? 0 then if col =? 0 then 0 else 1
  else if col =? 0 then 2 else 3.
(** context/mod.rs:143-152 *)
Definition mv_joint_vertical (j : Z) : bool := (j =? 2) || (j =? 3).
Definition mv_joint_horizontal (j : Z) : bool := (j =? 1) || (j =? 3).
(** context/mod.rs:153-160: mv_class_base *)
Definition mv_class_base (c : Z) : Z := if negb (c =? 0) then Z.shiftl CLASS0_SIZE (c + 2) else 0.
(** leading_zeros of a u32 *)
Definition clz32 (n : Z) : Z := if n =? 0 then 32 else 31 - Z.log2 n.
(** context/mod.rs:163-165: log_in_base_2 *)
Definition log_in_base_2 (n : Z) : Z := 31 - Z.min 31 (clz32 n).
(** context/mod.rs:168-180: get_mv_class; [None] for the u32 subtraction going
    below zero *)
Definition get_mv_class (z : Z) : option (Z * Z) :=
  let c := if CLASS0_SIZE * 4096 <=? z then 10 else log_in_base_2 (Z.shiftr z 3) in
  let offset := z - mv_class_base c in
  if offset <? 0 then None else Some (c, offset).

(** the integer bits, context/mod.rs:217-222; bits_cdf has MV_OFFSET_BITS
    entries *)
Fixpoint write_bits (axis d i : Z) (n : nat) : writer :=
  match n with
  | O => wnil
  | S n =>
      wguard (i <? MV_OFFSET_BITS)
        (wsym "mv_bit" [axis; i] 2 (Z.land (Z.shiftr d i) 1)) +++ write_bits axis d (i + 1) n
  end.

(** context/mod.rs:185-245: encode_mv_component.  Tables are named after the
    specification: sign_cdf mv_sign, classes_cdf mv_class, class0_cdf
    mv_class0_bit, bits_cdf mv_bit, class0_fp_cdf mv_class0_fr, fp_cdf mv_fr,
    class0_hp_cdf mv_class0_hp, hp_cdf mv_hp. *)
Definition encode_mv_component (comp axis : Z) (p : precision) : writer :=
  wguard (negb (comp =? 0))
 (wguard ((MV_LOW <=? comp) && (comp <=? MV_UPP))
 (let sign := if comp <? 0 then 1 else 0 in
  let mag := if sign =? 1 then - comp else comp in
  match get_mv_class (mag - 1) with
  | None => None
  | Some (mv_class, offset) =>
      let d := Z.shiftr offset 3 in
      let fr := Z.land (Z.shiftr offset 1) 3 in
      let hp := Z.land offset 1 in
      wsym "mv_sign" [axis] 2 sign +++
      wsym "mv_class" [axis] MV_CLASSES mv_class +++
      (if mv_class =? 0 then wsym "mv_class0_bit" [axis] CLASS0_SIZE d
       else write_bits axis d 0 (Z.to_nat (mv_class + CLASS0_BITS - 1))) +++
      wif (prec_val MV_SUBPEL_NONE <? prec_val p)
        (if mv_class =? 0
         then wguard ((0 <=? d) && (d <? CLASS0_SIZE)) (wsym "mv_class0_fr" [axis; d] MV_FP_SIZE fr)
         else wsym "mv_fr" [axis] MV_FP_SIZE fr) +++
      wif (prec_val MV_SUBPEL_LOW_PRECISION <? prec_val p)
        (if mv_class =? 0 then wsym "mv_class0_hp" [axis] 2 hp else wsym "mv_hp" [axis] 2 hp)
  end)).

(** mc.rs:46-50: MotionVector::is_valid *)
Definition mv_is_valid (row col : Z) : bool :=
  ((MV_LOW <? row) && (row <? MV_UPP)) && ((MV_LOW <? col) && (col <? MV_UPP)).
(** i16 subtraction overflow is a panic *)
Definition i16c (v : Z) : option Z := if (-32768 <=? v) && (v <=? 32767) then Some v else None.

(** context/block_unit.rs:1725-1745: write_mv *)
Definition write_mv (mv ref_mv : Z * Z) (p : precision) : writer :=
  wguard (mv_is_valid (fst mv) (snd mv))
  match i16c (fst mv - fst ref_mv), i16c (snd mv - snd ref_mv) with
  | Some row, Some col =>
      let j := get_mv_joint row col in
      wsym "mv_joint" [] 4 j +++
      wif (mv_joint_vertical j) (encode_mv_component row 0 p) +++
      wif (mv_joint_horizontal j) (encode_mv_component col 1 p)
  | _, _ => None
  end.
