(** Model of src/common/Event.cpp and src/common/EventStorage.cpp.
    A data field contributes the bits its own serializer leaves in it (IntSerModel, GPSTimeModel, ...
    for the serializers themselves); here it is that list of bits. *)
From Verif Require Import Base.

(** writes consecutive bits from index [i]; [None] when outside the array (fixed_array is unchecked) *)
Fixpoint put_from (arr : list bool) (i : nat) (bs : list bool) : option (list bool) :=
  match bs with
  | [] => Some arr
  | b :: t => match upd arr i b with Some arr' => put_from arr' (S i) t | None => None end
  end.

(** Event::Event, Event.cpp:5-21; [widths] are the data fields' bitsizes *)
Definition event_make (widths : list nat) : list bool := repeat false (32 + list_sum widths).

(** the loop over data fields, Event.cpp:36-42 *)
Fixpoint put_fields (arr : list bool) (i : nat) (fields : list (list bool)) : option (list bool) :=
  match fields with
  | [] => Some arr
  | f :: t => match put_from arr i f with Some arr' => put_fields arr' (i + length f) t | None => None end
  end.

(** Event::serialize, Event.cpp:27-43 (= signal, 53-55): [ccno] is the readable field pan.cycle_no, [fields]
    the data fields' bits after their own serialize *)
Definition event_signal (arr : list bool) (ccno : Z) (fields : list (list bool)) : option (list bool) :=
  match put_from arr 0 (val_bits 32 ccno) with
  | Some arr' => put_fields arr' 32 fields
  | None => None
  end.

(** Event::set_bit_array, Event.cpp:84-91; [None] is the failed assertion *)
Definition event_set (arr src : list bool) : option (list bool) :=
  if Nat.eqb (length src) (length arr) then Some src else None.

(** reads of consecutive bits *)
Fixpoint get_from (arr : list bool) (i n : nat) : option (list bool) :=
  match n with
  | O => Some []
  | S k => match nth_error arr i, get_from arr (S i) k with Some b, Some t => Some (b :: t) | _, _ => None end
  end.
Fixpoint get_fields (arr : list bool) (i : nat) (widths : list nat) : option (list (list bool)) :=
  match widths with
  | [] => Some []
  | w :: t => match get_from arr i w, get_fields arr (i + w) t with Some f, Some fs => Some (f :: fs) | _, _ => None end
  end.
(** Event::deserialize, Event.cpp:61-82 (ground): the cycle number and the bits handed to each field *)
Definition event_read (arr : list bool) (widths : list nat) : option (Z * list (list bool)) :=
  match get_from arr 0 32, get_fields arr 32 widths with
  | Some c, Some fs => Some (u32 (s32 (bits_val c)), fs)
  | _, _ => None
  end.

(** EventStorage: sub-events and event_ptr *)
Record storage := mk_st { st_slots : list (list bool); st_ptr : nat }.

(** EventStorage::EventStorage, EventStorage.cpp:4-20; [None] is the failed assertion *)
Definition storage_make (n : nat) (widths : list nat) : option storage :=
  if Nat.leb n 99 then Some (mk_st (repeat (event_make widths) n) 0) else None.

(** EventStorage::signal, EventStorage.cpp:54-60; [None] when sub_events[event_ptr] does not exist *)
Definition storage_signal (s : storage) (ccno : Z) (fields : list (list bool)) : option storage :=
  match nth_error (st_slots s) (st_ptr s) with
  | None => None
  | Some ev =>
    match event_signal ev ccno fields with
    | None => None
    | Some ev' =>
      match upd (st_slots s) (st_ptr s) ev' with
      | None => None
      | Some slots' => let p := S (st_ptr s) in
                       Some (mk_st slots' (if Nat.eqb p (length slots') then 0%nat else p))
      end
    end
  end.
Fixpoint storage_run (s : storage) (h : list (Z * list (list bool))) : option storage :=
  match h with
  | [] => Some s
  | (c, f) :: t => match storage_signal s c f with Some s' => storage_run s' t | None => None end
  end.

(** EventStorage::get_bit_array, EventStorage.cpp:35-38 *)
Definition storage_face (s : storage) : option (list bool) := nth_error (st_slots s) (st_ptr s).
