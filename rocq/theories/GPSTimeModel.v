(** Model of [gps_time_t], /repo/src/common/GPSTime.hpp, and of [Serializer<gps_time_t>],
    /repo/src/common/SerializerTypes.inl:760-830. *)
From Verif Require Import Base BitArrayModel IntSerModel.

(** GPSTime.hpp:7 *)
Definition ns_in_week : Z := 7 * 24 * 60 * 60 * 1000000000.

(** GPSTime.hpp:9-13: unsigned short, unsigned int, int, bool. *)
Record gtime := mk_gtime { g_wn : Z; g_tow : Z; g_ns : Z; g_set : bool }.

(** the values the C++ member types can hold *)
Definition gtime_typed (g : gtime) : Prop :=
  0 <= g_wn g < 2 ^ 16 /\ 0 <= g_tow g < 2 ^ 32 /\ - 2 ^ 31 <= g_ns g < 2 ^ 31.

(** Default constructor, GPSTime.hpp:16-21. *)
Definition gtime_default : gtime := mk_gtime 0 0 0 false.

(** Constructor from three numbers, GPSTime.hpp:24-29 (arguments already of the member types). *)
Definition gtime_make (wn tow ns : Z) : gtime := mk_gtime wn tow ns true.

(** Constructor from nanoseconds, GPSTime.hpp:32-37; the members truncate. *)
Definition gtime_of_ns (t : Z) : gtime :=
  let wn := u16 (t / ns_in_week) in
  let rest := u64 (t - u64 (wn * ns_in_week)) in
  mk_gtime wn (u32 (rest / 1000000)) (s32 (rest mod 1000000)) true.

(** Conversion to nanoseconds, GPSTime.hpp:47-49.  The inner sum is [long long] and cannot
    overflow; the outer is unsigned 64-bit. *)
Definition gtime_ns (g : gtime) : Z :=
  u64 (u64 (g_wn g * ns_in_week) + u64 (g_tow g * 1000000 + g_ns g)).

(** Comparisons with a nanosecond count, GPSTime.hpp:52-55, 61-64, 70, 72, 74, 76. *)
Definition eq_n (g : gtime) (t : Z) : bool := if g_set g then gtime_ns g =? t else false.
Definition lt_n (g : gtime) (t : Z) : bool := if g_set g then gtime_ns g <? t else false.
Definition ne_n (g : gtime) (t : Z) : bool := negb (eq_n g t).
Definition gt_n (g : gtime) (t : Z) : bool := negb (lt_n g t || eq_n g t).
Definition le_n (g : gtime) (t : Z) : bool := negb (gt_n g t).
Definition ge_n (g : gtime) (t : Z) : bool := negb (lt_n g t).

(** Comparisons with another time, GPSTime.hpp:56-60, 65-69, 71, 73, 75, 77. *)
Definition eq_g (g t : gtime) : bool := if g_set t then eq_n g (gtime_ns t) else false.
Definition lt_g (g t : gtime) : bool := if g_set t then lt_n g (gtime_ns t) else false.
Definition ne_g (g t : gtime) : bool := negb (eq_g g t).
Definition gt_g (g t : gtime) : bool := negb (lt_g g t || eq_g g t).
Definition le_g (g t : gtime) : bool := negb (gt_g g t).
Definition ge_g (g t : gtime) : bool := negb (lt_g g t).

(** [operator+=], GPSTime.hpp:80-88 (lines 111-118 are the same on a copy). *)
Definition add_n (g : gtime) (t : Z) : gtime := gtime_of_ns (u64 (gtime_ns g + t)).
Definition add_g (g t : gtime) : gtime := add_n g (gtime_ns t).

(** [operator-=], GPSTime.hpp:92-108 (lines 119-126 are the same on a copy). *)
Definition sub_n (g : gtime) (t : Z) : gtime :=
  if lt_n g t then mk_gtime (g_wn g) (g_tow g) (g_ns g) false
  else gtime_of_ns (u64 (gtime_ns g - t)).
Definition sub_g (g t : gtime) : gtime := sub_n g (gtime_ns t).

(** ** Serializer<gps_time_t> *)

(** The three inner serializers and the bits, SerializerTypes.inl:765-777. *)
Record gser := mk_gser { gs_wn : iser; gs_tow : iser; gs_ns : iser; gs_bits : list bool }.

Definition gser_make : option gser :=
  match iser_make_auto UInt 2000 3000, iser_make_auto UInt 0 (ns_in_week / 1000000),
        iser_make_auto SInt (-1000000) 1000000 with
  | Some w, Some t, Some n =>
      Some (mk_gser w t n (repeat false (1 + length (is_bits w) + length (is_bits t) + length (is_bits n))))
  | _, _, _ => None
  end.

(** Copy of the bits of [src] over [dst] from position [at_]: [std::copy], used at
    SerializerTypes.inl:793-795; [None] when the destination is too short. *)
Fixpoint copy_at (dst : list bool) (at_ : nat) (src : list bool) : option (list bool) :=
  match src with
  | [] => Some dst
  | b :: t => match upd dst at_ b with Some d => copy_at d (S at_) t | None => None end
  end.

(** [serialize], SerializerTypes.inl:779-796. *)
Definition gserialize (s : gser) (g : gtime) : option gser :=
  if g_set g then
    match upd (gs_bits s) 0 true, serialize (gs_wn s) (g_wn g), serialize (gs_tow s) (g_tow g),
          serialize (gs_ns s) (g_ns g) with
    | Some b0, Some w, Some t, Some n =>
        let nw := length (is_bits w) in
        let nt := length (is_bits t) in
        match copy_at b0 1 (is_bits w) with
        | Some b1 =>
          match copy_at b1 (1 + nw) (is_bits t) with
          | Some b2 =>
            match copy_at b2 (1 + nw + nt) (is_bits n) with
            | Some b3 => Some (mk_gser w t n b3)
            | None => None
            end
          | None => None
          end
        | None => None
        end
    | _, _, _, _ => None
    end
  else
    match upd (gs_bits s) 0 false with
    | Some b0 => Some (mk_gser (gs_wn s) (gs_tow s) (gs_ns s) b0)
    | None => None
    end.

(** [deserialize] to a value, SerializerTypes.inl:807-824.  [dest] is the destination's old value.
    [std::vector::assign] of a sub-range is modelled by [skipn]/[firstn]; a short source is [None]. *)
Definition sub_bits (l : list bool) (from n : nat) : option (list bool) :=
  if Nat.leb (from + n) (length l) then Some (firstn n (skipn from l)) else None.

Definition gdeserialize (s : gser) (dest : gtime) : option gtime :=
  match gs_bits s with
  | [] => None
  | false :: _ => Some (mk_gtime (g_wn dest) (g_tow dest) (g_ns dest) false)
  | true :: _ =>
    let nw := length (is_bits (gs_wn s)) in
    let nt := length (is_bits (gs_tow s)) in
    let nn := length (is_bits (gs_ns s)) in
    match sub_bits (gs_bits s) 1 nw, sub_bits (gs_bits s) (1 + nw) nt,
          sub_bits (gs_bits s) (1 + nw + nt) nn with
    | Some w, Some t, Some n =>
      match deserialize (set_bits (gs_wn s) w), deserialize (set_bits (gs_tow s) t),
            deserialize (set_bits (gs_ns s) n) with
      | Some vw, Some vt, Some vn => Some (mk_gtime (u16 vw) vt vn true)
      | _, _, _ => None
      end
    | _, _, _ => None
    end
  end.

(** [deserialize] from a string after all three numbers were scanned, SerializerTypes.inl:798-805. *)
Definition gdeserialize_scanned (s : gser) (dest : gtime) (wn tow ns : Z) : option (gtime * gser) :=
  let d := mk_gtime (u16 wn) (u32 tow) (s32 ns) (g_set dest) in
  match gserialize s d with Some s' => Some (d, s') | None => None end.
