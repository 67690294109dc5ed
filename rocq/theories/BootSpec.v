(** Specification of a wired program: what its calls register, without reference to the registry. *)
From Coq Require Import String.
From Verif Require Import Base FlownModel BootModel.
Open Scope string_scope.
Open Scope list_scope.

(** the fields registered by a sequence of calls *)
Definition registers (o : bop) : list (kind * bfield) :=
  match o with
  | Add k f => [(k, f)]
  | AddFlt n => map (pair KWritable) (fault_fields n)
  | _ => []
  end.
Definition registered (l : list bop) : list (kind * bfield) := flat_map registers l.

(** a writable field may also be looked up as readable *)
Definition serves (have want : kind) : Prop := have = want \/ (have = KWritable /\ want = KReadable).
