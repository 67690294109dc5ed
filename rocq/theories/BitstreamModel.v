(** Model of [bitstream], /repo/src/common/bitstream.{h,cpp}.
    A byte is the list of its 8 bits, least significant first (so [val >>= 1] drops the head).
    Reads and writes of the buffer are checked: [None] is an access outside it.  [max_len] is the
    buffer length, as at every constructor call. *)
From Verif Require Import Base.

Definition byte := list bool.
Record bstream := mk_bs { bs_buf : list byte; bs_byte : nat; bs_bit : nat }.

Definition bs_len (s : bstream) : nat := length (bs_buf s).

(** Constructor from bytes, bitstream.cpp:5-11. *)
Definition bs_make (buf : list byte) : bstream := mk_bs buf 0 0.

(** Constructor from a bit array, bitstream.cpp:13-28: byte i takes bits 8i..8i+7; reading past the
    end of the array is [None]. *)
Fixpoint read_bits (l : list bool) (from : nat) (n : nat) : option (list bool) :=
  match n with
  | O => Some []
  | S k => match nth_error l from, read_bits l (S from) k with
           | Some b, Some t => Some (b :: t)
           | _, _ => None
           end
  end.
Fixpoint pack_bytes (l : list bool) (i n : nat) : option (list byte) :=
  match n with
  | O => Some []
  | S k => match read_bits l (8 * i) 8, pack_bytes l (S i) k with
           | Some b, Some t => Some (b :: t)
           | _, _ => None
           end
  end.
Definition bs_of_bits (l : list bool) : option bstream :=
  match pack_bytes l 0 ((length l + 7) / 8) with Some b => Some (bs_make b) | None => None end.

(** [has_next], bitstream.cpp:30-33. *)
Definition has_next (s : bstream) : bool := Nat.ltb (bs_byte s) (bs_len s).

(** [seekG], bitstream.cpp:117-137.  [desired_off] is an [int]; the addition of a [size_t] wraps. *)
Definition seekG (s : bstream) (amt : Z) (dir : Z) : bstream * Z :=
  if negb (dir =? -1) && negb (dir =? 1) then (s, 0)
  else
    let d0 := s32 (u32 (8 * Z.of_nat (bs_byte s) + Z.of_nat (bs_bit s))) in
    let d := s32 (d0 + dir * amt) in
    if (s32 (8 * Z.of_nat (bs_len s)) <? d) || (d <? 0) then (s, 0)
    else (mk_bs (bs_buf s) (Z.to_nat (d / 8)) (Z.to_nat (d mod 8)), amt).

(** The copy loops of [next], bitstream.cpp:44-45 and 52-53: [k] bits of [val] go to [u8] from
    index [i]; [modify_bit], fixed_array.hpp:235-237, sets one bit. *)
Fixpoint rd_loop (k : nat) (val : byte) (u8 : byte) (i : nat) : option byte :=
  match k with
  | O => Some u8
  | S k' => match upd u8 i (hd false val) with
            | Some u => rd_loop k' (tl val) u (S i)
            | None => None
            end
  end.

(** [next], bitstream.cpp:35-57. *)
Definition next (s : bstream) (num : nat) (u8 : byte) : option (bstream * byte * nat) :=
  if Nat.ltb 8 num then Some (s, u8, O)
  else
    match nth_error (bs_buf s) (bs_byte s) with
    | None => None
    | Some v =>
      let k1 := Nat.min (8 - bs_bit s) num in
      match rd_loop k1 (skipn (bs_bit s) v) u8 0 with
      | None => None
      | Some u1 =>
        if Nat.ltb (bs_byte s + 1) (bs_len s) && Nat.ltb k1 num then
          match nth_error (bs_buf s) (bs_byte s + 1) with
          | None => None
          | Some v2 =>
            let k2 := Nat.min (bs_bit s) (num - k1) in
            match rd_loop k2 v2 u1 k1 with
            | None => None
            | Some u2 => Some (fst (seekG s (Z.of_nat (k1 + k2)) 1), u2, (k1 + k2)%nat)
            end
          end
        else Some (fst (seekG s (Z.of_nat k1) 1), u1, k1)
      end
    end.

(** [nextN] into bytes, bitstream.cpp:59-75.  [res] is the whole destination buffer. *)
Definition zero_byte : byte := repeat false 8.

Fixpoint memset0 (res : list byte) (n : nat) : option (list byte) :=
  match n, res with
  | O, _ => Some res
  | S k, _ :: t => match memset0 t k with Some t' => Some (zero_byte :: t') | None => None end
  | S _, [] => None
  end.

Fixpoint nextN_loop (iters i : nat) (s : bstream) (res : list byte) (w : nat)
  : option (bstream * list byte * nat) :=
  match iters with
  | O => Some (s, res, w)
  | S k => if has_next s then
             match nth_error res i with
             | None => None
             | Some u =>
               match next s 8 u with
               | None => None
               | Some (s', u', r) =>
                 match upd res i u' with
                 | None => None
                 | Some res' => nextN_loop k (S i) s' res' (w + r)
                 end
               end
             end
           else Some (s, res, w)
  end.

Definition nextN (s : bstream) (num : nat) (res : list byte) : option (bstream * list byte * nat) :=
  match memset0 res ((num + 7) / 8) with
  | None => None
  | Some res0 =>
    let iters := (num / 8)%nat in
    match nextN_loop iters 0 s res0 0 with
    | None => None
    | Some (s1, res1, w1) =>
      let m := (num mod 8)%nat in
      if negb (Nat.eqb m 0) && has_next s1 then
        match nth_error res1 iters with
        | None => None
        | Some u =>
          match next s1 m u with
          | None => None
          | Some (s2, u', r) =>
            match upd res1 iters u' with
            | None => None
            | Some res2 => Some (s2, res2, (w1 + r)%nat)
            end
          end
        end
      else Some (s1, res1, w1)
    end
  end.

(** [nextN] into a bit array, bitstream.cpp:77-97.  The local [u8] carries over between iterations;
    the stored bit is [u8 != 0]. *)
Fixpoint nextNv_loop (fuel : nat) (s : bstream) (arr : list bool) (w : nat) (u8 : byte)
  : option (bstream * list bool * nat) :=
  match fuel with
  | O => Some (s, arr, w)
  | S k => if has_next s then
             match next s 1 u8 with
             | None => None
             | Some (s', u', r) =>
               if Nat.eqb r 0 then Some (s', arr, w)
               else match upd arr w (existsb (fun b => b) u') with
                    | None => None
                    | Some arr' => nextNv_loop k s' arr' (S w) u'
                    end
             end
           else Some (s, arr, w)
  end.
Definition nextNv (s : bstream) (num : nat) (arr : list bool) : option (bstream * list bool * nat) :=
  if Nat.ltb (length arr) num then Some (s, arr, O)
  else nextNv_loop num s (repeat false (length arr)) 0 zero_byte.

(** [peekN], bitstream.cpp:99-115. *)
Definition peekN (s : bstream) (num : nat) (res : list byte) : option (bstream * list byte * nat) :=
  match nextN s num res with
  | Some (s1, r, w) => Some (fst (seekG s1 (Z.of_nat w) (-1)), r, w)
  | None => None
  end.
Definition peekNv (s : bstream) (num : nat) (arr : list bool) : option (bstream * list bool * nat) :=
  match nextNv s num arr with
  | Some (s1, r, w) => Some (fst (seekG s1 (Z.of_nat w) (-1)), r, w)
  | None => None
  end.

(** The write loops of [edit], bitstream.cpp:146-147 and 157-160: [k] bits of [v] into [old] from [i]. *)
Fixpoint wr_loop (k : nat) (old v : byte) (i : nat) : option (byte * byte) :=
  match k with
  | O => Some (old, v)
  | S k' => match upd old i (hd false v) with
            | Some o => wr_loop k' o (tl v) (S i)
            | None => None
            end
  end.

(** [edit], bitstream.cpp:139-166. *)
Definition edit (s : bstream) (num : nat) (v : byte) : option (bstream * nat) :=
  match nth_error (bs_buf s) (bs_byte s) with
  | None => None
  | Some old =>
    let k1 := Nat.min (8 - bs_bit s) num in
    match wr_loop k1 old v (bs_bit s) with
    | None => None
    | Some (o1, v1) =>
      match upd (bs_buf s) (bs_byte s) o1 with
      | None => None
      | Some buf1 =>
        if Nat.ltb (bs_byte s + 1) (bs_len s) && Nat.ltb k1 num then
          match nth_error buf1 (bs_byte s + 1) with
          | None => None
          | Some old2 =>
            let k2 := Nat.min (bs_bit s) (num - k1) in
            match wr_loop k2 old2 v1 0 with
            | None => None
            | Some (o2, _) =>
              match upd buf1 (bs_byte s + 1) o2 with
              | None => None
              | Some buf2 =>
                Some (fst (seekG (mk_bs buf2 (bs_byte s) (bs_bit s)) (Z.of_nat (k1 + k2)) 1), (k1 + k2)%nat)
              end
            end
          end
        else Some (fst (seekG (mk_bs buf1 (bs_byte s) (bs_bit s)) (Z.of_nat k1) 1), k1)
      end
    end
  end.

(** [editN] from bytes, bitstream.cpp:168-184, including its clamp of [num_iters]. *)
Fixpoint editN_loop (iters i : nat) (s : bstream) (src : list byte) (w : nat) : option (bstream * nat) :=
  match iters with
  | O => Some (s, w)
  | S k => match nth_error src i with
           | None => None
           | Some v => match edit s 8 v with
                       | None => None
                       | Some (s', r) => editN_loop k (S i) s' src (w + r)
                       end
           end
  end.
Definition editN (s : bstream) (num : nat) (src : list byte) : option (bstream * nat) :=
  let it0 := (num / 8)%nat in
  let iters := if Nat.ltb (bs_byte s + bs_len s) it0 then (bs_len s - bs_byte s)%nat else it0 in
  let m := (num mod 8)%nat in
  match editN_loop iters 0 s src 0 with
  | None => None
  | Some (s1, w) =>
    if Nat.eqb m 0 then Some (s1, w)
    else match nth_error src iters with
         | None => None
         | Some v => match edit s1 m v with
                     | None => None
                     | Some (s2, r) => Some (s2, (w + r)%nat)
                     end
         end
  end.

(** [editN] from another stream, bitstream.cpp:186-199. *)
Definition editN_bs (s : bstream) (num : nat) (o : bstream) : option (bstream * bstream * nat) :=
  match nextN o num (repeat zero_byte ((num + 7) / 8)) with
  | None => None
  | Some (o', tmp, r) =>
    match editN s r tmp with
    | None => None
    | Some (s', w) => Some (s', o', w)
    end
  end.

(** [reset], bitstream.cpp:201-205. *)
Definition bs_reset (s : bstream) : bstream := mk_bs (bs_buf s) 0 0.

(** [operator<<(bitstream&, bitstream&)], bitstream.cpp:257-262. *)
Definition bs_write_bs (o s : bstream) : option (bstream * bstream * nat) :=
  editN_bs s ((bs_len o - bs_byte o) * 8 - bs_bit o) o.
