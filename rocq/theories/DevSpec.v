(** What the drivers of the attitude computer's devices are meant to do, in terms of the bus alone. *)
From Verif Require Import Base DevModel.

(** [x] three times in a row *)
Definition thrice {A} (x : A) (l : list A) : Prop := exists l1 l2, l = l1 ++ [x; x; x] ++ l2.

(** calls made on the bus: where they lead, whether all of them succeeded, and the bytes of the last one *)
Fixpoint sends (B : bus) (l : list wop) (b : bst B) : bst B * bool * list Z :=
  match l with
  | [] => (b, true, [])
  | [o] => let '(b, r) := bcall B o b in (b, w_ok r, w_data r)
  | o :: l => let '(b, r) := bcall B o b in let '(b, ok, d) := sends B l b in (b, w_ok r && ok, d)
  end.
Definition lost (B : bus) : Prop := forall o b, w_ok (snd (bcall B o b)) = false.
Definition sound (B : bus) : Prop := forall o b, w_ok (snd (bcall B o b)) = true.

(** exchanges with a device one after the other; the list tells which failed *)
Fixpoint exchanges (B : bus) (ms : list (list wop)) (s : bst B * dev) : bst B * dev * list bool :=
  match ms with
  | [] => (s, [])
  | m :: ms => let '(s, e) := pop B (calls B m s) in let '(s, l) := exchanges B ms s in (s, e :: l)
  end.

(** a device just put into use *)
Definition fresh_dev : dev := mk_dev true 0 false.

(** passes over a sensor, and their readings *)
Fixpoint passes {A B} (pass : A -> A * B) (n : nat) (s : A) : A * list B :=
  match n with O => (s, []) | S n => let '(s, r) := pass s in let '(s, l) := passes pass n s in (s, r :: l) end.
(** conversions of a converter *)
Fixpoint conversions (B : bus) (fuel : nat) (cfgs : list (list Z)) (s : bst B * dev) : option (bst B * dev * list (option Z)) :=
  match cfgs with
  | [] => Some (s, [])
  | c :: cs => match adc_pass B fuel c s with
               | None => None
               | Some (s, r) => match conversions B fuel cs s with Some (s, l) => Some (s, r :: l) | None => None end
               end
  end.

Definition int16 (z : Z) : Prop := -32768 <= z < 32768.
Definition word16 (z : Z) : Prop := 0 <= z < 65536.
(** a number in two's complement, low byte first *)
Definition coded (z : Z) : list Z := [z mod 256; z / 256 mod 256].

Definition all3 (P : Z -> Prop) (v : Z * Z * Z) : Prop := let '(a, b, c) := v in P a /\ P b /\ P c.
(** bridge outputs fit the chip's registers *)
Definition in_range (off f : Z * Z * Z) : Prop := all3 word16 (output off true f) /\ all3 word16 (output off false f).
Definition half (f : Z * Z * Z) : Z * Z * Z := let '(a, b, c) := f in (Z.quot a 2, Z.quot b 2, Z.quot c 2).
Definition opposite (f : Z * Z * Z) : Z * Z * Z := let '(a, b, c) := f in (- a, - b, - c).
(** what the getters return for the bytes of a pass *)
Definition published (off : Z * Z * Z) (l : list Z) : Z * Z * Z := map3 mag2_value off (mag2_words l).
(** the magnetometer measures by itself and is magnetized as the getters expect *)
Definition set_up (c : chip) : Prop := c_ctl c = 0x0E /\ c_pos c = false /\ c_tx c = [].

(** a bus that works as [B] does for some calls and then fails for good *)
Definition dying (B : bus) : bus := mk_bus (nat * bst B) (fun o s =>
  match fst s with
  | O => (s, mk_wres false [])
  | S k => let '(b, r) := bcall B o (snd s) in ((k, b), r)
  end).
(** a bus on which all calls succeed and which keeps the messages sent: the one being sent, those finished *)
Definition listening : bus := mk_bus (list Z * list (list Z)) (fun o s =>
  (match o with Write l => (fst s ++ l, snd s) | EndTx | Finish => ([], snd s ++ [fst s]) | _ => s end, mk_wres true [])).
(** What each device has to be told at a reset, register first: first magnetometer 50 Hz in register CFG_A and no reading of
    half-updated values in CFG_C; second magnetometer continuous measurement at 50 Hz in CTRL0; gyroscope 52 Hz at 125 degrees per
    second in CTRL2_G; converters' thresholds such that the alert pin shows the end of a conversion; all potentiometers at 0. *)
Definition reset_messages : list (list Z) * list (list Z) * list (list Z) * list (list Z) * list (list Z) :=
  ([[0x60; 0x08]; [0x62; 0x10]], [[7; 0x0E]], [[0x11; 0x32]], [[2; 0; 0]; [3; 0xFF; 0xFF]], [[0; 0; 0; 0; 0]]).
