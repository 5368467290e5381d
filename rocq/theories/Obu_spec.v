(** What an AV1 parser does with the bytes of a temporal unit, from the
    specification: leb128( ), open_bitstream_unit( ), metadata_obu( ),
    trailing_bits( ) and tile_group_obu( ). *)
From Verif Require Import Base Bits.

Definition bparser (A : Type) : Type := list Z -> option (A * list Z).

(** 4.10.5: value = 0; for ( i = 0; i < 8; i++ ) { leb128_byte f(8);
    value |= ( (leb128_byte & 0x7f) << (i*7) ); if ( !(leb128_byte & 0x80) ) break }
    The result must fit in 32 bits. *)
Fixpoint s_leb_loop (n : nat) (i value : Z) : bparser Z :=
  fun l =>
  match n with
  | O => Some (value, l)
  | S n =>
      match l with
      | [] => None
      | b :: l =>
          let value := Z.lor value (Z.shiftl (Z.land b 127) (i * 7)) in
          if Z.land b 128 =? 0 then Some (value, l) else s_leb_loop n (i + 1) value l
      end
  end.
Definition s_leb128 : bparser Z :=
  fun l => match s_leb_loop 8 0 0 l with
           | Some (v, r) => if v <? 2 ^ 32 then Some (v, r) else None
           | None => None
           end.

(** 5.3.2, obu_header( ): type and whether a size follows; OBU extensions are
    skipped *)
Definition s_obu_header : parser (Z * bool * bool) :=
  forbidden <- p_f 1 ;;
  type <- p_f 4 ;;
  ext <- p_flag ;;
  has_size <- p_flag ;;
  reserved <- p_f 1 ;;
  if forbidden =? 0 then p_ret (type, ext, has_size) else p_fail.

(** 5.3.1, open_bitstream_unit( sz ): header, size, payload of that size *)
Definition s_obu : bparser (Z * list Z) :=
  fun l =>
  match l with
  | [] => None
  | b :: l =>
      match s_obu_header (bits_of 8 b) with
      | Some ((type, ext, has_size), _) =>
          match (if ext : bool then match l with [] => None | _ :: l => Some l end else Some l) with
          | None => None
          | Some l =>
              if has_size : bool then
                match s_leb128 l with
                | Some (sz, l) =>
                    if sz <=? zlen l then Some ((type, firstn (Z.to_nat sz) l), skipn (Z.to_nat sz) l) else None
                | None => None
                end
              else Some ((type, l), [])
          end
      | None => None
      end
  end.
(** All OBUs of a temporal unit *)
Fixpoint s_obus (fuel : nat) (l : list Z) : option (list (Z * list Z)) :=
  match l with
  | [] => Some []
  | _ :: _ =>
      match fuel with
      | O => None
      | S fuel =>
          match s_obu l with
          | Some (o, r) => match s_obus fuel r with Some os => Some (o :: os) | None => None end
          | None => None
          end
      end
  end.
Definition s_temporal_unit (l : list Z) : option (list (Z * list Z)) := s_obus (length l) l.

(** 5.3.4, trailing_bits( ): a one and zeros up to the end *)
Definition s_trailing (l : list bool) : Prop := exists n, l = true :: repeat false n.
(** byte_alignment( ): zeros up to the next byte boundary *)

(** 5.8, metadata_obu( ).  itu_t_t35_payload_bytes is everything up to the
    trailing one bit, i.e. up to the last non-zero byte, which must be 0x80
    (6.7.2). *)
Inductive s_metadata :=
| SCll (max_cll max_fall : Z)
| SMdcv (prim : list (Z * Z)) (white : Z * Z) (lmax lmin : Z)
| ST35 (country : Z) (ext : option Z) (payload : list Z).
Definition s_xy : parser (Z * Z) := x <- p_f 16 ;; y <- p_f 16 ;; p_ret (x, y).
(** the bytes before the trailing bits *)
Fixpoint drop_zeros (l : list Z) : list Z :=
  match l with
  | x :: r => if x =? 0 then drop_zeros r else l
  | [] => []
  end.
Definition s_before_trailing (l : list Z) : option (list Z) :=
  match drop_zeros (rev l) with
  | x :: r => if x =? 128 then Some (rev r) else None
  | [] => None
  end.
Definition all_trailing (l : list bool) : bool :=
  match l with true :: r => forallb negb r | _ => false end.
Definition s_metadata_obu (payload : list Z) : option s_metadata :=
  match s_leb128 payload with
  | Some (1, l) =>
      match (a <- p_f 16 ;; b <- p_f 16 ;; p_ret (SCll a b)) (bytes_bits l) with
      | Some (m, r) => if all_trailing r then Some m else None
      | None => None
      end
  | Some (2, l) =>
      match (prim <- p_repeat 3 s_xy ;; white <- s_xy ;; lmax <- p_f 32 ;; lmin <- p_f 32 ;;
             p_ret (SMdcv prim white lmax lmin)) (bytes_bits l) with
      | Some (m, r) => if all_trailing r then Some m else None
      | None => None
      end
  | Some (4, l) =>
      match s_before_trailing l with
      | Some (c :: l) =>
          if c =? 255 then match l with e :: l => Some (ST35 c (Some e) l) | [] => None end
          else Some (ST35 c None l)
      | _ => None
      end
  | _ => None
  end.

(** 5.11.1, tile_group_obu( sz ) with NumTiles tiles and TileSizeBytes:
    tile_start_and_end_present_flag, tg_start .. tg_end, byte_alignment, and
    the tiles; every tile but the last has tile_size_minus_1 le(TileSizeBytes). *)
Fixpoint s_le (l : list Z) : Z := match l with [] => 0 | x :: l => x + 256 * s_le l end.
Fixpoint s_tiles (n : nat) (tsb : Z) (l : list Z) : option (list (list Z)) :=
  match n with
  | O => None
  | S O => Some [l]
  | S n =>
      if tsb <=? zlen l then
        let size := s_le (firstn (Z.to_nat tsb) l) + 1 in
        let l := skipn (Z.to_nat tsb) l in
        if size <=? zlen l then
          match s_tiles n tsb (skipn (Z.to_nat size) l) with
          | Some ts => Some (firstn (Z.to_nat size) l :: ts)
          | None => None
          end
        else None
      else None
  end.
(** Only tile groups with all the tiles (flag equal to 0) are read here; the
    bits after the flag are byte_alignment( ), which must be zero. *)
Definition s_tile_group (num_tiles tsb : Z) (l : list Z) : option (list (list Z)) :=
  if 1 <? num_tiles then
    match l with
    | 0 :: l => s_tiles (Z.to_nat num_tiles) tsb l
    | _ => None
    end
  else s_tiles (Z.to_nat num_tiles) tsb l.
