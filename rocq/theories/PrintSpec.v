(** Reading printed numbers: independent of the model of printing. *)
From Verif Require Import Base.
From Coq Require Import Reals.
Local Open Scope Z_scope.

(** value of a list of decimal digits (ASCII), most significant first *)
Definition dec_val (l : list Z) : Z := fold_left (fun a c => 10 * a + (c - 48)) l 0.
Definition all_digits (l : list Z) : Prop := Forall (fun c => 48 <= c <= 57) l.

(** [shows s r]: the text [s] is a decimal number with six places whose value is [r] *)
Definition shows (s : list Z) (r : R) : Prop :=
  exists (neg : bool) (i f : list Z), s = (if neg then [45] else []) ++ i ++ 46 :: f /\ all_digits i /\ all_digits f /\ i <> [] /\ length f = 6%nat /\
    r = ((if neg then -1 else 1) * (IZR (dec_val i) + IZR (dec_val f) / 1000000))%R.

(** texts of several numbers, each followed by a comma *)
Definition listed (l : list (list Z)) : list Z := concat (map (fun t => t ++ [44]) l).
Definition token (t : list Z) : Prop := t <> [] /\ ~ In 44 t.
