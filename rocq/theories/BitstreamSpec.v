(** Specification of a bit stream: a list of bits and a position. *)
From Verif Require Import Base BitstreamModel.

(** all bits of the buffer, in stream order *)
Definition all_bits (s : bstream) : list bool := concat (bs_buf s).
Definition position (s : bstream) : nat := 8 * bs_byte s + bs_bit s.
Definition remaining (s : bstream) : nat := length (all_bits s) - position s.

(** bytes are bytes, the position is inside the buffer or at its end, and the buffer is small
    enough for [int] bit offsets *)
Definition wf_bytes (l : list byte) : Prop := Forall (fun b => length b = 8%nat) l.
Definition wf_bs (s : bstream) : Prop :=
  wf_bytes (bs_buf s) /\ (bs_bit s < 8)%nat /\ (position s <= 8 * bs_len s)%nat /\
  8 * Z.of_nat (bs_len s) < 2 ^ 31 - 8.

(** [l] with the bits from [p] replaced by [w] *)
Definition overwrite (l : list bool) (p : nat) (w : list bool) : list bool :=
  firstn p l ++ w ++ skipn (p + length w) l.
