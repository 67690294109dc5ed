(** Model of src/fsw/FCCode/EEPROMControllerCommon.cpp and EEPROMControllerTeensy.cpp (the flight build), with
    the state fields' EEPROM representation, src/common/StateFieldTypes.inl:103-158.
    The EEPROM is an array of bytes; writing one byte is atomic.  Power can be lost between any two writes. *)
From Verif Require Import Base.

(** the five EEPROM-saveable types, StateFieldTypes.inl:68-74 *)
Inductive ety := EBool | EUChar | ESChar | EUInt | ESInt.
Definition ety_min (t : ety) : Z := match t with ESChar => -128 | ESInt => - 2 ^ 31 | _ => 0 end.
Definition ety_max (t : ety) : Z :=
  match t with EBool => 1 | EUChar => 255 | ESChar => 127 | EUInt => 2 ^ 32 - 1 | ESInt => 2 ^ 31 - 1 end.

(** a saved field: is it "pan.state"?, its type, its save period *)
Record pfield := mk_pf { pf_state : bool; pf_ty : ety; pf_period : Z }.

(** _get_eeprom_repr, StateFieldTypes.inl:103-119 *)
Definition eeprom_repr (t : ety) (v : Z) : Z :=
  match t with EUChar | ESChar => u8 v | _ => u32 v end.

(** _set_from_eeprom, StateFieldTypes.inl:137-154 *)
Definition set_from_eeprom (t : ety) (old val : Z) : Z :=
  match t with
  | EUChar => if 255 <? val then old else u8 val
  | ESChar => if 255 <? val then old else s8 val
  | EBool => if 1 <? val then old else val
  | EUInt => val
  | ESInt => s32 val
  end.

(** update_EEPROM, EEPROMControllerTeensy.cpp:26-32; EEPROM.update stores a byte *)
Definition update_eeprom (e : list Z) (pos : nat) (repr : Z) : option (list Z) :=
  match nth_error e (pos * 5) with
  | None => None
  | Some b => if b =? repr then Some e else upd e (pos * 5) (u8 repr)
  end.

(** execute, EEPROMControllerCommon.cpp:22-29, on the fields from index [i] on *)
Fixpoint eeprom_save (cc : Z) (i : nat) (fs : list pfield) (vals : list Z) (e : list Z) : option (list Z) :=
  match fs, vals with
  | f :: fs', v :: vals' =>
    let e' := if cc mod pf_period f =? 0 then update_eeprom e i (eeprom_repr (pf_ty f) v) else Some e in
    match e' with Some e1 => eeprom_save cc (S i) fs' vals' e1 | None => None end
  | _, _ => Some e
  end.

(** check_empty, EEPROMControllerTeensy.cpp:34-44 *)
Definition check_empty (e : list Z) : bool := forallb (fun b => b =? 255) e.

(** read_EEPROM, EEPROMControllerTeensy.cpp:11-24 *)
Definition docking_state : Z := 8.
Definition docked_state : Z := 9.
Fixpoint read_eeprom (i : nat) (fs : list pfield) (vals : list Z) (e : list Z) : option (list Z) :=
  match fs, vals with
  | f :: fs', v :: vals' =>
    match nth_error e (i * 5) with
    | None => None
    | Some b =>
      let v' := if pf_state f && negb (b =? docking_state) && negb (b =? docked_state) then v
                else set_from_eeprom (pf_ty f) v b in
      match read_eeprom (S i) fs' vals' e with Some r => Some (v' :: r) | None => None end
    end
  | _, _ => Some vals
  end.

(** init, EEPROMControllerCommon.cpp:3-20; [defaults] are the values the constructors gave the fields.  [None]: the
    assertion on the number of fields fails, or an access is outside the device. *)
Definition eeprom_init (fs : list pfield) (defaults : list Z) (e : list Z) : option (list Z) :=
  if Z.of_nat (length fs) <=? 4096 / 5 then
    if check_empty e then Some defaults else read_eeprom 0 fs defaults e
  else None.

(** Cycles 1, 2, ... of one boot; [hist] gives the values of the fields when the controller runs in each cycle. *)
Fixpoint eeprom_run (cc : Z) (fs : list pfield) (hist : list (list Z)) (e : list Z) : option (list Z) :=
  match hist with
  | [] => Some e
  | vals :: t => match eeprom_save cc 0 fs vals e with Some e' => eeprom_run (cc + 1) fs t e' | None => None end
  end.

(** One boot cut short: [hist] complete cycles, then in the next cycle, with values [vals], only the first [j]
    fields are dealt with before power is lost. *)
Definition eeprom_crash (fs : list pfield) (hist : list (list Z)) (vals : list Z) (j : nat) (e : list Z) : option (list Z) :=
  match eeprom_run 1 fs hist e with
  | Some e1 => eeprom_save (Z.of_nat (length hist) + 1) 0 (firstn j fs) vals e1
  | None => None
  end.
