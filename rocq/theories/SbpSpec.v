(** What is expected of the GPS receiver's link, independently of the parser: the checksum as a polynomial remainder, the
    format of a message, and the messages contained in a stream of bytes. *)
From Verif Require Import Base SbpModel.

Definition is_byte (b : Z) : Prop := 0 <= b < 256.

(** ** The checksum: remainder of the division by x^16 + x^12 + x^5 + 1 *)

(** the bits of a byte, most significant first *)
Definition byte_bits (b : Z) : list bool := map (fun i => Z.testbit b i) [7; 6; 5; 4; 3; 2; 1; 0].
Definition bits (l : list Z) : list bool := flat_map byte_bits l.

(** one step of the division: the next bit of the dividend enters *)
Definition divide (r : Z) (b : bool) : Z :=
  let r2 := (2 * r) mod 65536 in
  if xorb (Z.testbit r 15) b then Z.lxor r2 0x1021 else r2.

Definition remainder (l : list Z) : Z := fold_left divide (bits l) 0.

(** ** Messages *)

(** the part of a message under the checksum *)
Definition body (ty sender payload : list Z) : list Z := ty ++ sender ++ [Z.of_nat (length payload)] ++ payload.

(** as transmitted with the checksum [c] *)
Definition framed (ty sender payload : list Z) (c : Z) : list Z :=
  0x55 :: body ty sender payload ++ [c mod 256; c / 256].

Inductive item := Good (ty sender payload : list Z) | Bad.

(** the two-byte and one-byte numbers of a message *)
Definition two (l : list Z) : Prop := length l = 2%nat.

(** [messages s is]: reading the stream [s] from the beginning, bytes other than the mark 0x55 are skipped, and each mark
    starts a message of the length announced in it, good or bad according to its checksum; an unfinished message at the end
    is not counted *)
Inductive messages : list Z -> list item -> Prop :=
| Msg_end : messages [] []
| Msg_skip b s is : b <> 0x55 -> messages s is -> messages (b :: s) is
| Msg_good ty sender payload s is :
    two ty -> two sender -> messages s is ->
    messages (framed ty sender payload (remainder (body ty sender payload)) ++ s) (Good ty sender payload :: is)
| Msg_bad ty sender payload c0 c1 s is :
    two ty -> two sender -> c0 + 256 * c1 <> remainder (body ty sender payload) -> messages s is ->
    messages (0x55 :: body ty sender payload ++ [c0; c1] ++ s) (Bad :: is)
| Msg_part ty sender payload c more s :
    two ty -> two sender -> s <> [] -> more <> [] -> Forall is_byte more -> s ++ more = 0x55 :: body ty sender payload ++ c ->
    length c = 2%nat -> messages s [].

(** ** What a callback is given *)
Definition view (e : event) : item :=
  match e with Message ty sender n buf => Good ty sender (firstn (Z.to_nat n) buf) | Corrupt => Bad end.

(** ** Navigation data *)

Definition ty_time := [0x00; 0x01].
Definition ty_pos := [0x00; 0x02].
Definition ty_base := [0x02; 0x02].
Definition ty_vel := [0x04; 0x02].

(** the payload of the last good message of a type *)
Definition last_payload (ty : list Z) (items : list item) : option (list Z) :=
  fold_left (fun acc it => match it with
                           | Good t _ p => if list_eq_dec Z.eq_dec t ty then Some p else acc
                           | Bad => acc end) items None.

(** every navigation message is at least as long as its format (navigation.h:56-63, 95-105, 145-155, 191-201) *)
Definition full_length (items : list item) : Prop :=
  forall t sender p, In (Good t sender p) items ->
    (t = ty_time -> (11 <= length p)%nat) /\ (t = ty_pos -> (32 <= length p)%nat) /\
    (t = ty_vel -> (20 <= length p)%nat) /\ (t = ty_base -> (20 <= length p)%nat).

(** little-endian number of [n] bytes at an offset *)
Fixpoint little (l : list Z) : Z := match l with [] => 0 | b :: t => b + 256 * little t end.
Definition num (p : list Z) (off n : nat) : Z := little (firstn n (skipn off p)).
Definition signed32 (x : Z) : Z := if x <? 2147483648 then x else x - 4294967296.
Definition snum (p : list Z) (off : nat) : Z := signed32 (num p off 4).

(** navigation.h:56-63: week, milliseconds of the week, nanoseconds *)
Definition time_value (p : list Z) : Z * Z * Z := (num p 0 2, num p 2 4, snum p 6).
Definition tow_time (p : list Z) : Z := num p 2 4.
(** navigation.h:95-105, 145-155, 191-201: milliseconds of the week, then three coordinates *)
Definition tow (p : list Z) : Z := num p 0 4.
Definition doubles (p : list Z) : list Z := [num p 4 8; num p 12 8; num p 20 8].
Definition ints (p : list Z) : list Z := [snum p 4; snum p 8; snum p 12].
Definition sats_used (p : list Z) : Z := num p 30 1.
Definition fix_mode (p : list Z) : Z := num p 19 1.

(** the data of one control cycle can be used: no damaged message, small delay, time, position and velocity present, of the
    same instant, from at least four satellites *)
Definition usable (delta : Z) (items : list item) (pt pp pv : list Z) : Prop :=
  ~ In Bad items /\ delta <= 100000 /\
  last_payload ty_time items = Some pt /\ last_payload ty_pos items = Some pp /\ last_payload ty_vel items = Some pv /\
  tow_time pt = tow pp /\ tow_time pt = tow pv /\ 4 <= sats_used pp.
