(** Model of the texts fields are printed to and read from: the [print] members and the [deserialize] members for text of the
    serializers, /repo/src/common/SerializerTypes.inl.  Characters are their ASCII codes.  [sprintf] and [sscanf] follow the C
    standard; writing past a buffer, or scanning a number that does not fit the destination, is a distinct outcome. *)
From Verif Require Import Base IntSerModel GPSTimeModel.
From Flocq Require Import IEEE754.BinarySingleNaN.
Local Open Scope Z_scope.

(** decimal digits, most significant first; at least one *)
Fixpoint digits_f (fuel : nat) (z : Z) : list Z :=
  match fuel with
  | O => [48 + z mod 10]
  | S k => if z <? 10 then [48 + z] else digits_f k (z / 10) ++ [48 + z mod 10]
  end.
Definition digits (z : Z) : list Z := digits_f (Z.to_nat (Z.log2 z)) z.

(** conversions u and d *)
Definition fmt_u (z : Z) : list Z := digits z.
Definition fmt_d (z : Z) : list Z := if z <? 0 then 45 :: digits (- z) else digits z.

(** conversion 6.6f: rounded to a whole number of millionths, halves to even; infinities and NaNs are padded to six characters *)
Definition rhe (n d : Z) : Z :=
  let q := n / d in let r := n mod d in
  if 2 * r <? d then q else if d <? 2 * r then q + 1 else if Z.even q then q else q + 1.
Definition millionths (m : positive) (e : Z) : Z := if 0 <=? e then Z.pos m * 1000000 * 2 ^ e else rhe (Z.pos m * 1000000) (2 ^ (- e)).
Fixpoint padded (n : nat) (z : Z) : list Z := match n with O => [] | S k => padded k (z / 10) ++ [48 + z mod 10] end.
Definition fixed (s : bool) (u : Z) : list Z := (if s then [45] else []) ++ digits (u / 1000000) ++ 46 :: padded 6 (u mod 1000000).
Definition fmt_f {prec emax} (x : binary_float prec emax) : list Z :=
  match x with
  | B754_zero s => fixed s 0
  | B754_finite s m e _ => fixed s (millionths m e)
  | B754_infinity s => if s then [32; 32; 45; 105; 110; 102] else [32; 32; 32; 105; 110; 102]
  | B754_nan => [32; 32; 32; 110; 97; 110]
  end.

(** the text and its terminator go into a buffer of [size] characters; [None]: past its end *)
Definition into (size : Z) (text : list Z) : option (list Z) := if Z.of_nat (length text) + 1 <=? size then Some text else None.

(** [print]: bool :38-44 (6 characters, :18), integers :123-129 (:138, :155, :174, :194), float and double :268-271 (:215) *)
Definition print_bool (b : bool) : option (list Z) := into 6 (if b then [116; 114; 117; 101] else [102; 97; 108; 115; 101]).
Definition int_buf (t : ity) : Z := match t with UInt => 11 | SInt => 12 | UChar => 4 | SChar => 5 end.
Definition print_int (t : ity) (z : Z) : option (list Z) :=
  into (int_buf t) (match t with UInt | UChar => fmt_u z | SInt | SChar => fmt_d z end).
Definition print_float {prec emax} (x : binary_float prec emax) : option (list Z) := into 14 (fmt_f x).

(** [vector_print], :302-311, and [vector_print_size], :317-320: a comma after every value *)
Definition print_vector {prec emax} (l : list (binary_float prec emax)) : option (list Z) :=
  let n := Z.of_nat (length l) in
  into (13 * n + (n - 1) + 1) (concat (map (fun x => fmt_f x ++ [44]) l)).

(** GPS time, :826-829 (25 characters, :763).  The time of week is unsigned but printed by a signed conversion. *)
Definition as_int (z : Z) : Z := if z <? 2147483648 then z else z - 4294967296.
Definition print_gps (t : gtime) : option (list Z) :=
  into 25 (fmt_u (g_wn t) ++ 44 :: fmt_d (as_int (g_tow t)) ++ 44 :: fmt_d (g_ns t)).

(** ** Reading *)

(** [sscanf] of one number: no number, a number that does not fit in [lo..hi] (undefined), or the number and the rest *)
Inductive scanned := NoNumber | Misfit | Number (z : Z) (rest : list Z).
Definition is_space (c : Z) : bool := (c =? 32) || ((9 <=? c) && (c <=? 13)).
Definition is_digit (c : Z) : bool := (48 <=? c) && (c <=? 57).
Fixpoint skip_space (l : list Z) : list Z := match l with c :: k => if is_space c then skip_space k else l | [] => [] end.
Fixpoint take_digits (acc : Z) (l : list Z) : Z * list Z :=
  match l with c :: k => if is_digit c then take_digits (10 * acc + (c - 48)) k else (acc, l) | [] => (acc, []) end.
Definition take_sign (l : list Z) : bool * list Z :=
  match l with c :: k => if c =? 45 then (true, k) else if c =? 43 then (false, k) else (false, l) | [] => (false, []) end.
Definition scan_num (mn mx : Z) (l : list Z) : scanned :=
  let '(neg, l) := take_sign (skip_space l) in
  match l with
  | c :: _ => if is_digit c
              then let '(v, k) := take_digits 0 l in
                   let v := if neg then - v else v in
                   if (mn <=? v) && (v <=? mx) then Number v k else Misfit
              else NoNumber
  | [] => NoNumber
  end.

(** result of [deserialize] from text: undefined, rejected, or the value stored *)
Inductive read (A : Type) := Undefined | Rejected | Stored (a : A).
Arguments Undefined {A}. Arguments Rejected {A}. Arguments Stored {A} a.

(** bool, :26-35 *)
Definition read_bool (l : list Z) : read bool :=
  if list_eq_dec Z.eq_dec l [102; 97; 108; 115; 101] then Stored false
  else if list_eq_dec Z.eq_dec l [116; 114; 117; 101] then Stored true else Rejected.

(** integers, :108-117: scanned as int, then cast.  The limits of the field are not consulted. *)
Definition read_int (t : ity) (l : list Z) : read Z :=
  match scan_num (- 2147483648) 2147483647 l with
  | NoNumber => Rejected
  | Misfit => Undefined
  | Number z _ => Stored (ity_conv t z)
  end.

(** GPS time, :798-805: three numbers separated by commas; whether the time is set is left as it was.  The numbers scanned before
    a failure are stored. *)
Definition read_gps (old : gtime) (l : list Z) : read gtime :=
  match scan_num 0 65535 l with
  | Misfit => Undefined
  | NoNumber => Rejected
  | Number w (44 :: l) =>
    match scan_num (- 2147483648) 2147483647 l with
    | Misfit => Undefined
    | NoNumber => Rejected
    | Number t (44 :: l) =>
      match scan_num (- 2147483648) 2147483647 l with
      | Misfit => Undefined
      | NoNumber => Rejected
      | Number n _ => Stored (mk_gtime w (t mod 4294967296) n (g_set old))
      end
    | Number _ _ => Rejected
    end
  | Number _ _ => Rejected
  end.

(** [deserialize_vector_str], :326-347: tokens between commas, empty ones skipped, are converted one after the other into an array
    of [n] elements; [conv] stands for strtof or strtod.  More than [n] tokens are written past its end.  The copy of 150
    characters is left out. *)
Fixpoint tokens (cur : list Z) (l : list Z) : list (list Z) :=
  let flush := match cur with [] => [] | _ => [rev cur] end in
  match l with
  | [] => flush
  | c :: k => if c =? 44 then flush ++ tokens [] k else tokens (c :: cur) k
  end.
Definition read_vector {A} (conv : list Z -> A) (n : nat) (l : list Z) : read (list A) :=
  let t := tokens [] l in
  if (n <? length t)%nat then Undefined
  else if (length t =? n)%nat then Stored (map conv t) else Rejected.
