(** An order from the ground, seen again in telemetry: the commands of CommandModel, the fields they set, and the frames of
    FlownModel in which those fields are sent back, read by the ground's parser. *)
From Coq Require Import String.
From Verif Require Import Base BitArrayModel IntSerModel BitstreamModel UplinkModel FlownModel FlownSpec BootModel CommandModel CommandSpec.
Open Scope string_scope.
Open Scope list_scope.
Open Scope Z_scope.

(** What a field that holds a value sends: /repo/src/fsw/FCCode/DownlinkProducer.cpp:146-155 serializes the value
    (WritableStateField.hpp, StateField.hpp: serialize()), and the frame takes the bit array of the serializer, whatever the
    serializer held before.  Integer and boolean fields; the values of the others are kept as bits in CommandModel. *)
Definition sends (f : bfield) (v : sval) (b : list bool) : Prop :=
  match bf_decl f, v with
  | Some DBool, SB x => b = [x]
  | Some (DInt t mn mx c), SZ z =>
      exists s0 s s', ser_of t mn mx c = Some s0 /\ int_reach s0 s /\ serialize s z = Some s' /\ b = is_bits s'
  | _, _ => False
  end.

(** In the flows that the ground's parser reports, flow [id] is there, and at every place where its row of the table names the
    field [n], the bits reported are such that [read] holds of them. *)
Definition shown_in (flows : list (Z * list (list bool))) (id : Z) (names : list string) (n : string) (read : list bool -> Prop) : Prop :=
  exists bs, In (id, bs) flows /\ (forall bs', In (id, bs') flows -> bs' = bs) /\
    forall k, nth_error names k = Some n -> exists b, nth_error bs k = Some b /\ read b.
