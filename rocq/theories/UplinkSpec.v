(** Specification of uplink packets: assignments to distinct writable fields. *)
From Verif Require Import Base.

(** an assignment: field number and the bits it shall hold *)
Definition assignment := (nat * list bool)%type.

(** each assignment names an existing field of the right, non-zero, width; no field twice *)
Definition valid_assignments (lens : list nat) (es : list assignment) : Prop :=
  NoDup (map fst es) /\ Forall (fun e => nth_error lens (fst e) = Some (length (snd e)) /\ snd e <> []) es.

(** wire format: index plus one in [isz] bits, least significant first, then the bits *)
Definition wire (isz : nat) (es : list assignment) : list bool :=
  flat_map (fun e => val_bits isz (Z.of_nat (fst e) + 1) ++ snd e) es.

(** the packet grammar: assignments followed by fewer than [isz + 8] zero bits *)
Definition packet (isz : nat) (lens : list nat) (bits : list bool) (es : list assignment) : Prop :=
  valid_assignments lens es /\
  exists pad, (pad < isz + 8)%nat /\ bits = wire isz es ++ repeat false pad.

(** the value assigned to field [i], if any *)
Fixpoint assigned (es : list assignment) (i : nat) : option (list bool) :=
  match es with
  | [] => None
  | (j, b) :: t => if Nat.eqb j i then Some b else assigned t i
  end.
