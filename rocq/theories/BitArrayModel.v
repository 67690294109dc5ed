(** Model of [bit_array] = [fixed_array<bool>], /repo/src/common/fixed_array.hpp. *)
From Verif Require Import Base.

(** Conversion unsigned long long -> double, rounding to nearest, ties to even, returned as the
    (integral) value of the double.  It is what happens to [val] in the comparison
    [pow(2, i) > val], fixed_array.hpp:271. *)
Definition ull_to_double (v : Z) : Z :=
  if v <? 2 ^ 53 then v
  else
    let k := Z.log2 v - 52 in
    let q := v / 2 ^ k in
    let r := v mod 2 ^ k in
    let h := 2 ^ (k - 1) in
    let q' := if r <? h then q else if h <? r then q + 1 else if Z.even q then q else q + 1 in
    q' * 2 ^ k.

(** The search loop of [num_val_bits_ok], fixed_array.hpp:270-275: first [i] (from [i0], at most
    [fuel] candidates) with [2^i > d], otherwise [bitsize]. *)
Fixpoint val_num_bits (fuel : nat) (i0 : nat) (bitsize : nat) (d : Z) : nat :=
  match fuel with
  | O => bitsize
  | S f => if d <? 2 ^ Z.of_nat i0 then i0 else val_num_bits f (S i0) bitsize d
  end.

(** [num_val_bits_ok<unsigned long long>], fixed_array.hpp:265-278 (bitsize = 64). *)
Definition num_val_bits_ok64 (size : nat) (v : Z) : bool :=
  negb (Nat.ltb size (val_num_bits 64 0 64 (ull_to_double v))).

(** The write loop of [set_ullong], fixed_array.hpp:177-182, with checked writes; [None] is an
    out-of-bounds write.  [fuel] bounds the number of halvings: 64 suffices for a 64-bit value
    ([None] when exhausted). *)
Fixpoint write_loop (fuel : nat) (arr : list bool) (i : nat) (v : Z) : option (list bool) :=
  if v <=? 0 then Some arr
  else match fuel with
       | O => None
       | S f => match upd arr i (Z.odd v) with
                | Some arr' => write_loop f arr' (S i) (v / 2)
                | None => None
                end
       end.

(** [bit_array::set_ullong], fixed_array.hpp:172-185.  Result: (returned flag, new contents), or
    [None] for an out-of-bounds write. *)
Definition set_ullong (arr : list bool) (v : Z) : option (bool * list bool) :=
  if num_val_bits_ok64 (length arr) v then
    match write_loop 64 (repeat false (length arr)) 0 v with
    | Some a => Some (true, a)
    | None => None
    end
  else Some (false, arr).

(** [bit_array::to_ullong], fixed_array.hpp:220-230; 64-bit wrap-around of [exp] and [val]. *)
Fixpoint to_ullong_loop (l : list bool) (exp val : Z) : Z :=
  match l with
  | [] => val
  | b :: t => to_ullong_loop t (u64 (exp * 2)) (u64 (val + Z.b2z b * exp))
  end.
Definition to_ullong (l : list bool) : Z := to_ullong_loop l 1 0.

(** [fixed_array_base::operator=], fixed_array.hpp:71-75, 85-89: ignored when sizes differ. *)
Definition assign {A} (dst src : list A) : list A :=
  if Nat.eqb (length src) (length dst) then src else dst.
