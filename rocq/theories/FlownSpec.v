(** Specification: the telemetry table that flies and what the ground should read. *)
From Coq Require Import String.
From Coq Require Import List.
From Coq Require Import Reals.
From Flocq Require Import IEEE754.BinarySingleNaN.
From Verif Require Import Base BitArrayModel IntSerModel FloatSerModel GPSTimeModel VecSerModel DownlinkModel FlownModel.
Open Scope string_scope.
Open Scope Z_scope.

(** every field's bit array has the size it is declared with *)
Definition fits (val : string -> list bool) : Prop :=
  forall n d w, lookup registry n = Some d -> width d = Some w -> List.length (val n) = w.

(** the flows that are on after the commands of a run: those on at boot, each toggle command flipping one *)
Fixpoint default_on (tbl : list (Z * bool * list string)) (id : Z) : bool :=
  match tbl with
  | [] => false
  | (i, b, _) :: t => if i =? id then b else default_on t id
  end.
Fixpoint switched (on : Z -> bool) (tog : list Z) : Z -> bool :=
  match tog with
  | [] => on
  | t :: l => switched (fun id => if (id =? t) then negb (on id) else on id) l
  end.
Definition on_after (l : list ((string -> list bool) * Z)) : Z -> bool := switched (default_on flown) (map snd l).

(** the bits in a flow: its id in 6 bits, and its fields.  From flow 1 to flow 43: *)
Definition flow_bits : list Z :=
  [61; 336; 92; 186; 214; 198; 19; 68; 54; 72; 46; 13; 29; 24; 80; 63; 130; 45; 181; 12; 362; 8; 86; 86; 7; 102; 44; 453; 406;
   406; 10; 92; 47; 24; 8; 45; 38; 25; 25; 44; 45; 42; 57].

(** bits of telemetry when the flows [on] are on: the cycle number and those flows *)
Definition telemetry_bits (on : Z -> bool) : Z :=
  32 + fold_right (fun p acc => if on (fst p) then snd p + acc else acc) 0 (combine (map (fun i => Z.of_nat i + 1) (seq 0 43)) flow_bits).

(** what should be reported: the flows that are on, in the table's order, with the bits of their fields *)
Definition should_report (on : Z -> bool) (val : string -> list bool) : list (Z * list (list bool)) :=
  map (fun row => (fst (fst row), map val (snd row))) (filter (fun row => on (fst (fst row))) flown).

(** a bit array with bit [k] (weight 2^k) cleared *)
Fixpoint clear (k : nat) (l : list bool) {struct l} : list bool :=
  match l, k with
  | [], _ => []
  | _ :: t, O => false :: t
  | b :: t, S k => b :: clear k t
  end.

(** the same contents with one bit of one field cleared *)
Definition with_cleared (name : string) (k : nat) (val : string -> list bool) : string -> list bool :=
  fun n => if String.eqb n name then clear k (val n) else val n.

(** ** the bit arrays that the serializer of a declaration can hold *)
(** an integer's: as constructed, after serializing a value, after an uplink sets the bits *)
Inductive int_reach (s0 : iser) : iser -> Prop :=
| ir_new : int_reach s0 s0
| ir_ser s v s' : int_reach s0 s -> serialize s v = Some s' -> int_reach s0 s'
| ir_set s b : int_reach s0 s -> int_reach s0 (set_bits s b).
Inductive flt_reach {prec emax Hp He} (s0 : fser prec emax) : fser prec emax -> Prop :=
| fr_new : flt_reach s0 s0
| fr_ser s v s' : flt_reach s0 s -> fserialize prec emax Hp He s v = Some s' -> flt_reach s0 s'
| fr_set s b : flt_reach s0 s -> flt_reach s0 (fs_set_bits prec emax s b).
Inductive gps_reach : gser -> Prop :=
| pr_new s : gser_make = Some s -> gps_reach s
| pr_ser s g s' : gps_reach s -> gserialize s g = Some s' -> gps_reach s'.

Inductive written : fdecl -> list bool -> Prop :=
| wr_bool b : written DBool [b]
| wr_int t mn mx c s : int_reach (iser_make t mn mx c) s -> written (DInt t mn mx (Some c)) (is_bits s)
| wr_auto t mn mx s0 s : iser_make_auto t mn mx = Some s0 -> int_reach s0 s -> written (DInt t mn mx None) (is_bits s)
| wr_float n prec emax Hp He mn mx (s : fser prec emax) :
    @flt_reach prec emax Hp He (fser_make prec emax mn mx n) s -> written (DFlt n) (fs_bits prec emax s)
| wr_vec mn mx sc p v b : vserialize (IZR mn / IZR sc) (IZR mx / IZR sc) p v = Some b -> written (DVec mn mx sc p) b
| wr_quat q b : qserialize q = Some b -> written DQuat b
| wr_gps s : gps_reach s -> written DGps (gs_bits s).

(** ** exchanging flows *)
(** the flows that can be exchanged: neighbours with equally many fields *)
Definition exchange_pairs : list (Z * Z) := [(3, 4); (20, 21); (23, 24); (27, 28); (29, 30); (35, 36); (38, 39)].
Definition exchangeable (a b : Z) : bool :=
  existsb (fun p => ((fst p =? a) && (snd p =? b)) || ((fst p =? b) && (snd p =? a))) exchange_pairs.
(** the table with the rows of two flows exchanged *)
Definition row_of (tbl : list (Z * bool * list string)) (id : Z) : Z * bool * list string :=
  match find (fun row => fst (fst row) =? id) tbl with Some row => row | None => (0, false, []) end.
Definition exchanged (a b : Z) (tbl : list (Z * bool * list string)) : list (Z * bool * list string) :=
  map (fun row => if fst (fst row) =? a then row_of tbl b else if fst (fst row) =? b then row_of tbl a else row) tbl.
(** what should be reported from a table: the flows that are on, in order *)
Definition rows_report (tbl : list (Z * bool * list string)) (on : Z -> bool) (val : string -> list bool) : list (Z * list (list bool)) :=
  map (fun row => (fst (fst row), map val (snd row))) (filter (fun row => on (fst (fst row))) tbl).

(** in flight, a value that names no flow counts as flow 1 *)
Definition named (a : Z) : Z := if 43 <? a then 1 else a.
Definition moved (a b : Z) : list (Z * bool * list string) :=
  if named a =? named b then flown else exchanged (Z.min (named a) (named b)) (Z.max (named a) (named b)) flown.

(** a time that is set and within the limits of its serializer *)
Definition in_telemetry (g : gtime) : Prop :=
  g_set g = true /\ 2000 <= g_wn g <= 3000 /\ 0 <= g_tow g <= 604800000 /\ -1000000 <= g_ns g <= 1000000.
