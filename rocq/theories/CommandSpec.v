(** Specification of commanding: a command is legal if it names a commandable field and gives a value of the declared kind and
    range; a legal command sets the field to that value. *)
From Coq Require Import String.
From Verif Require Import Base IntSerModel IntSerSpec BitstreamModel BitstreamSpec UplinkModel UplinkSpec FlownModel BootModel CommandModel.
Open Scope string_scope.
Open Scope list_scope.
Open Scope Z_scope.

(** integer fields with a width of their own (a third serializer argument) hold only some of their values *)
Definition coarse (f : bfield) : Prop := exists t mn mx c, bf_decl f = Some (DInt t mn mx (Some c)).

Definition legal_value (f : bfield) (j : jval) : Prop :=
  match j with
  | JInt z => exists t mn mx c, bf_decl f = Some (DInt t mn mx c) /\ mn <= z <= mx
  | JBool _ => bf_decl f = Some DBool
  | JOther bits => bf_decl f <> Some DBool /\ (forall t mn mx c, bf_decl f <> Some (DInt t mn mx c)) /\
                   List.length bits = bf_width f
  end.
Definition legal (tbl : list bfield) (c : string * jval) : Prop :=
  exists f, In f tbl /\ bf_name f = fst c /\ legal_value f (snd c).
Definition names_coarse (tbl : list bfield) (c : string * jval) : Prop := exists f, In f tbl /\ bf_name f = fst c /\ coarse f.

(** the value a command asks for *)
Definition asked (j : jval) : sval := match j with JInt z => SZ z | JBool b => SB b | JOther bits => SBits bits end.
Fixpoint order (cmds : list (string * jval)) (n : string) : option jval :=
  match cmds with
  | [] => None
  | (m, j) :: t => if String.eqb m n then Some j else order t n
  end.

(** what a command leaves in the field: an integer field keeps the largest multiple of its step, counted from its lower bound, that
    does not exceed the value; the other fields keep the value *)
Definition lands (f : bfield) (j : jval) (v : sval) : Prop :=
  match j with
  | JInt z => exists t mn mx c st d, bf_decl f = Some (DInt t mn mx c) /\ is_step (mx - mn) (Z.of_nat (bf_width f)) st /\
                quantised mn mx st z d /\ v = SZ d
  | _ => v = asked j
  end.
(** the limit the ground puts on integers by the width of the field *)
Definition within_width (tbl : list bfield) (c : string * jval) : Prop :=
  forall f z, In f tbl -> bf_name f = fst c -> snd c = JInt z -> z < 2 ^ (Z.of_nat (bf_width f) + 1).

(** bits a file of commands takes in the message *)
Definition width_of (tbl : list bfield) (n : string) : nat :=
  match find (fun f => String.eqb (bf_name f) n) tbl with Some f => bf_width f | None => 0%nat end.
Fixpoint cost (tbl : list bfield) (cmds : list (string * jval)) : nat :=
  match cmds with
  | [] => 0%nat
  | (n, _) :: t => (8 + width_of tbl n + cost tbl t)%nat
  end.

(** The fields of the satellite declared with a width of their own: the largest value the ground sends them ([None]: it sends
    none), and the step of what they keep. *)
Definition coarse_limits : list (string * (option Z * Z)) :=
  [("gomspace.batt_threshold", (None, 4)); ("gomspace.pv1_cmd", (Some 1023, 17)); ("gomspace.pv2_cmd", (Some 1023, 17));
   ("gomspace.pv3_cmd", (Some 1023, 17)); ("docking_timeout_limit", (Some 127, 16135))].
Definition limits (n : string) : option (option Z * Z) :=
  option_map snd (find (fun p => String.eqb (fst p) n) coarse_limits).
Definition refused (c : string * jval) : bool :=
  match limits (fst c), snd c with
  | Some (None, _), _ => true
  | Some (Some m, _), JInt z => m <? z
  | _, _ => false
  end.
Definition kept (n : string) (j : jval) : sval :=
  match limits n, j with
  | Some (_, st), JInt z => SZ (z / st * st)
  | _, _ => asked j
  end.

(** [junk] stands for what follows a field's last bits in the ground's temporary buffer *)
Definition good_junk (junk : nat -> list bool) : Prop :=
  forall n, ((n + List.length (junk n)) mod 8 = 0)%nat /\ (List.length (junk n) < 8)%nat.

(** A file of commands is delivered: the ground makes a message of it, of as many bytes as its entries need, and the satellite,
    whatever its fields held and whatever follows the message in its buffer, takes the message in and sets every field named in the
    file to what [want] says, and no other field. *)
Definition delivered (tbl : list bfield) (cmds : list (string * jval)) (want : bfield -> jval -> sval) : Prop :=
  forall junk (fields : list (wfield sval)) tail,
  good_junk junk -> map (fun f => List.length (wf_bits f)) fields = map bf_width tbl -> wf_bytes tail ->
  exists msg fields', ground_message tbl junk cmds = Some (Some msg) /\
    List.length msg = ((cost tbl cmds + 7) / 8)%nat /\
    consumer_execute (sat_deser tbl) (mk_us fields (List.length msg) (Some (msg ++ tail))) =
      Some (mk_us fields' 0 (Some (msg ++ tail))) /\
    map (fun f => List.length (wf_bits f)) fields' = map bf_width tbl /\
    forall i f w, nth_error tbl i = Some f -> nth_error fields i = Some w ->
      match order cmds (bf_name f) with
      | Some j => exists b, nth_error fields' i = Some (mk_wf b (want f j))
      | None => nth_error fields' i = Some w
      end.
