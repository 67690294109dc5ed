(** The fields saved in EEPROM by the flight program, with the values they carry through boots: the table [saved] of BootModel over
    the EEPROM controller of EEPROMModel. *)
From Coq Require Import String.
From Verif Require Import Base EEPROMModel FlownModel RegistryModel BootModel.
Open Scope string_scope.
Open Scope list_scope.
Open Scope Z_scope.

(** the EEPROM type of a field, /repo/src/common/StateFieldTypes.inl:68-74 *)
Definition ety_of (t : ctype) : ety := match t with CBool => EBool | CUChar => EUChar | CSInt => ESInt | _ => EUInt end.

(** registry.eeprom_saved_fields of the flight program after start-up, in order (StateFieldRegistry.cpp, MainControlLoop.cpp:17-80);
    pan.state is singled out by name in EEPROMControllerTeensy.cpp:19 *)
Definition flight_saved : list pfield :=
  map (fun f => mk_pf (String.eqb (bf_name f) "pan.state") (ety_of (bf_type f)) (bf_period f)) saved.
Definition saved_names : list string := map bf_name saved.

(** One boot, MainControlLoop.cpp:82-83 and MissionManager.cpp:98-100: the EEPROM is read, the boot counter is incremented; then
    [hist] complete cycles and one cut short after [j] fields.  The rows are the values of the saved fields when the EEPROM
    controller runs; the boot counter is written nowhere else (/repo/src/fsw/FCCode has no other use of pan.bootcount), the other
    fields are whatever the tasks make them. *)
Definition row_of_boot (fs : list pfield) (count : Z) (vals : list Z) : Prop :=
  List.length vals = List.length fs /\ nth_error vals 0 = Some count /\
  forall i f v, nth_error fs i = Some f -> nth_error vals i = Some v -> ety_min (pf_ty f) <= v <= ety_max (pf_ty f).
Inductive one_boot (fs : list pfield) (defaults : list Z) (e : list Z) : Z -> nat -> list Z -> Prop :=
| one_boot_run r c hist vals j e' :
    eeprom_init fs defaults e = Some r -> nth_error r 0 = Some c ->
    Forall (row_of_boot fs (u8 (c + 1))) (hist ++ [vals]) ->
    eeprom_crash fs hist vals j e = Some e' ->
    one_boot fs defaults e (u8 (c + 1)) (List.length hist) e'.
(** boots one after another: the counter of each and its complete cycles *)
Inductive boots (fs : list pfield) (defaults : list Z) : list Z -> list (Z * nat) -> list Z -> Prop :=
| boots_none e : boots fs defaults e [] e
| boots_more e l e1 n k e2 : boots fs defaults e l e1 -> one_boot fs defaults e1 n k e2 -> boots fs defaults e (l ++ [(n, k)]) e2.
