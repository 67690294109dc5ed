(** Model of [IntegerSerializer<T>], /repo/src/common/SerializerTypes.inl:50-203. *)
From Verif Require Import Base BitArrayModel.

(** The four instantiations, SerializerTypes.inl:52-56. *)
Inductive ity := UInt | SInt | UChar | SChar.

Definition ity_bits (t : ity) : Z := match t with UInt | SInt => 32 | UChar | SChar => 8 end.
Definition ity_min (t : ity) : Z :=
  match t with UInt | UChar => 0 | SInt => - 2 ^ 31 | SChar => - 2 ^ 7 end.
Definition ity_max (t : ity) : Z :=
  match t with UInt => 2 ^ 32 - 1 | UChar => 2 ^ 8 - 1 | SInt => 2 ^ 31 - 1 | SChar => 2 ^ 7 - 1 end.
(** conversion of an integer value to [T] *)
Definition ity_conv (t : ity) (x : Z) : Z :=
  match t with UInt => u32 x | UChar => u8 x | SInt => s32 x | SChar => s8 x end.

(** [log2i], SerializerTypes.inl:59-66: the number of right shifts until zero. *)
Fixpoint log2i_loop (fuel : nat) (n i : Z) : Z :=
  match fuel with
  | O => i
  | S f => if 0 <? n then log2i_loop f (n / 2) (i + 1) else i
  end.
Definition log2i (n : Z) : Z := log2i_loop 32 n 0.

(** A serializer object: declared range and the bit array. *)
Record iser := mk_iser { is_ty : ity; is_min : Z; is_max : Z; is_bits : list bool }.

(** Constructor with a compressed size, SerializerTypes.inl:68-72 (the initial bits are false,
    Serializer.hpp:63). *)
Definition iser_make (t : ity) (mn mx : Z) (compressed : nat) : iser :=
  mk_iser t mn mx (repeat false (Nat.min compressed (Z.to_nat (ity_bits t)))).

(** [max - min]: computed in [unsigned int] for UInt and in [int] otherwise; signed overflow is
    undefined behaviour ([None]). *)
Definition cpp_range (t : ity) (mn mx : Z) : option Z :=
  match t with
  | UInt => Some (u32 (mx - mn))
  | UChar | SChar => Some (u32 (mx - mn))
  | SInt => if (mx - mn <? 2 ^ 31) && (- 2 ^ 31 <=? mx - mn) then Some (u32 (mx - mn)) else None
  end.

(** Constructor without a compressed size, SerializerTypes.inl:74-78. *)
Definition iser_make_auto (t : ity) (mn mx : Z) : option iser :=
  match cpp_range t mn mx with
  | Some r => Some (mk_iser t mn mx (repeat false (Z.to_nat (log2i r))))
  | None => None
  end.

(** [_resolution], SerializerTypes.inl:81-93.  [interval_per_bit] has type [T]; the product and
    the comparison are [unsigned int]; the result is converted to [unsigned int]. *)
Definition resolution (s : iser) : option Z :=
  match cpp_range (is_ty s) (is_min s) (is_max s) with
  | None => None
  | Some range =>
      let num_bits := Z.of_nat (length (is_bits s)) in
      let num_intervals := if num_bits <? 32 then u32 (2 ^ num_bits - 1) else 4294967295 in
      if num_intervals =? 0 then Some 0
      else
        let ipb := ity_conv (is_ty s) (range / num_intervals) in
        let ipb' := if u32 (u32 ipb * num_intervals) <? range
                    then ity_conv (is_ty s) (ipb + 1) else ipb in
        Some (u32 ipb')
  end.

(** [serialize], SerializerTypes.inl:95-106. [None]: undefined behaviour. *)
Definition serialize (s : iser) (src : Z) : option iser :=
  let src1 := if is_max s <? src then is_max s else src in
  let src2 := if src1 <? is_min s then is_min s else src1 in
  match cpp_range (is_ty s) (is_min s) src2, resolution s with
  | Some diff, Some res =>
      let v := if res =? 0 then 0 else diff / res in
      match set_ullong (is_bits s) v with
      | Some (_, b) => Some (mk_iser (is_ty s) (is_min s) (is_max s) b)
      | None => None
      end
  | _, _ => None
  end.

(** [deserialize] to a T, SerializerTypes.inl:119-121; the arithmetic is 64-bit unsigned. *)
Definition deserialize (s : iser) : option Z :=
  match resolution s with
  | Some res => Some (ity_conv (is_ty s) (u64 (is_min s + u64 (to_ullong (is_bits s) * res))))
  | None => None
  end.

(** [deserialize] from a string after a successful scan, SerializerTypes.inl:108-117: the field takes
    the scanned value (converted to T) and the bits are re-encoded. *)
Definition deserialize_scanned (s : iser) (scanned : Z) : option (Z * iser) :=
  let dest := ity_conv (is_ty s) scanned in
  match serialize s dest with Some s' => Some (dest, s') | None => None end.

(** [set_bit_array], Serializer.hpp:188-191. *)
Definition set_bits (s : iser) (b : list bool) : iser :=
  mk_iser (is_ty s) (is_min s) (is_max s) (assign (is_bits s) b).
