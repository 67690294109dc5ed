(** How an operator's command reaches a field: the JSON file the ground software reads
    (/repo/src/gsw/parsers/src/UplinkProducer.cpp), the message, and the field of the satellite (UplinkModel), over a table
    of fields; the table of the satellite is [commandable] of BootModel. *)
From Coq Require Import String.
From Verif Require Import Base BitArrayModel IntSerModel BitstreamModel UplinkModel FlownModel BootModel.
Open Scope string_scope.
Open Scope list_scope.
Open Scope Z_scope.

(** A JSON value.  [JOther] stands for the values of float, double, vector and time fields: it carries the bits their
    serializers make of them once the checks of UplinkProducer.cpp:56-178 have passed (those serializers are modelled elsewhere). *)
Inductive jval := JInt (z : Z) | JBool (b : bool) | JOther (bits : list bool).

(** The types UplinkProducer::add_field_to_bitstream tries, UplinkProducer.cpp:180-199 (those that occur here). *)
Definition encoders : list ctype :=
  [CUInt; CSInt; CUChar; CFloat; CDouble; CBool; CArr3f; CVec3f; CVec3d; CVec4f; CVec4d; CGps].

(** the serializer of an integer field *)
Definition ser_of (t : ity) (mn mx : Z) (c : option nat) : option iser :=
  match c with None => iser_make_auto t mn mx | Some n => Some (iser_make t mn mx n) end.

(** The value checks of try_add_field for an integer type, UplinkProducer.cpp:31-50: the JSON library converts the number to the
    type with static_cast (get_arithmetic_value of nlohmann::json), then the bounds, then a limit that depends on the width.
    [None]: an exception. *)
Definition ground_int (t : ity) (mn mx : Z) (len : nat) (json : Z) : option Z :=
  let v := ity_conv t json in
  if (v <? mn) || (mx <? v) then None
  else if 2 ^ (Z.of_nat len + 1) - 1 <? u32 v then None
  else Some v.

(** UplinkProducer.cpp:31-54 for an integer field: the checked value goes through the field's serializer. *)
Definition encode_int (f : bfield) (t : ity) (mn mx : Z) (c : option nat) (z : Z) : option (list bool) :=
  match ground_int t mn mx (bf_width f) z, ser_of t mn mx c with
  | Some v, Some s => option_map is_bits (serialize s v)
  | _, _ => None
  end.

(** try_add_field for one field, UplinkProducer.cpp:26-55: the bits of the entry; [None]: an exception.
    The JSON library gives an integer field true as 1 and false as 0.  A number with a fraction for an integer field is not modelled. *)
Definition encode (f : bfield) (j : jval) : option (list bool) :=
  if existsb (ctype_beq (bf_type f)) encoders then
    match bf_decl f, j with
    | Some DBool, JBool b => Some [b]
    | Some (DInt t mn mx c), JInt z => encode_int f t mn mx c z
    | Some (DInt t mn mx c), JBool b => encode_int f t mn mx c (if b then 1 else 0)
    | Some DBool, _ | Some (DInt _ _ _ _), _ => None
    | Some _, JOther bits => if Nat.eqb (List.length bits) (bf_width f) then Some bits else None
    | _, _ => None
    end
  else None.

(** field_map, UplinkProducer.cpp:16-22: the last field of that name. *)
Fixpoint field_map (i : nat) (l : list bfield) (n : string) : option (nat * bfield) :=
  match l with
  | [] => None
  | f :: t => match field_map (S i) t n with
              | Some r => Some r
              | None => if String.eqb n (bf_name f) then Some (i, f) else None
              end
  end.

(** The loop over the JSON items, UplinkProducer.cpp:213-227; [junk] as in UplinkModel.add_entry. *)
Fixpoint entries (tbl : list bfield) (junk : nat -> list bool) (cmds : list (string * jval)) : option (list (nat * list bool * list bool)) :=
  match cmds with
  | [] => Some []
  | (n, j) :: t =>
    match field_map 0 tbl n with
    | None => None
    | Some (i, f) =>
      match encode f j, entries tbl junk t with
      | Some b, Some r => Some ((i, b, junk (List.length b)) :: r)
      | _, _ => None
      end
    end
  end.

(** create_sbd_from_json, UplinkProducer.cpp:302-320: [Some None] is an exception (no file), [None] undefined behaviour. *)
Definition ground_message (tbl : list bfield) (junk : nat -> list bool) (cmds : list (string * jval)) : option (option (list byte)) :=
  match entries tbl junk cmds with
  | None => Some None
  | Some es => create_packet (map bf_width tbl) es
  end.

(** What a satellite field holds, and how it is recomputed from received bits (the fields' own deserialize). *)
Inductive sval := SZ (z : Z) | SB (b : bool) | SBits (bits : list bool).
Definition sat_deser (tbl : list bfield) (i : nat) (bits : list bool) (old : sval) : sval :=
  match nth_error tbl i with
  | None => old
  | Some f =>
    match bf_decl f with
    | Some DBool => SB (hd false bits)
    | Some (DInt t mn mx c) =>
      match ser_of t mn mx c with
      | Some s => match deserialize (set_bits s bits) with Some z => SZ z | None => old end
      | None => old
      end
    | _ => SBits bits
    end
  end.
