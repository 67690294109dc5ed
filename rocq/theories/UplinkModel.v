(** Model of the uplink path: /repo/src/fsw/FCCode/UplinkCommon.cpp, UplinkConsumer.cpp and the
    packing part of /repo/src/gsw/parsers/src/UplinkProducer.cpp, on top of the bit stream model.
    [None] is an access outside a buffer (or a loop that outlives its fuel, shown impossible). *)
From Verif Require Import Base BitstreamModel.

(** The bytes of a [size_t] in memory, little endian (as on both processors). *)
Definition bytes64 (v : Z) : list byte :=
  map (fun i => val_bits 8 (v / 2 ^ (8 * Z.of_nat i))) (seq 0 8).
Definition val64 (bs : list byte) : Z := bits_val (concat bs).

(** A writable field: its bit array and its value; [deser] is the field's own [deserialize()],
    which recomputes the value from the bits. *)
Section Uplink.
  Variable V : Type.
  Variable deser : nat -> list bool -> V -> V.

  Record wfield := mk_wf { wf_bits : list bool; wf_val : V }.

  (** [init_uplink], UplinkCommon.cpp:7-12: least index_size >= 1 with (n+1) / 2^index_size = 0. *)
  Fixpoint index_size_from (fuel : nat) (k : nat) (n : Z) : nat :=
    match fuel with
    | O => k
    | S f => if 0 <? (n + 1) / 2 ^ Z.of_nat k then index_size_from f (S k) n else k
    end.
  Definition index_size (n : nat) : nat := index_size_from n 1 (Z.of_nat n).

  (** [get_field_length], UplinkCommon.cpp:93-98, for the list of the fields' widths. *)
  Definition get_field_length (lens : list nat) (i : nat) : nat :=
    match nth_error lens i with Some l => l | None => O end.

  (** Read of an index: [nextN(index_size, (uint8_t* )&field_index)], UplinkCommon.cpp:28 and 72.
      Only the bytes covering [index_size] bits are cleared first. *)
  Definition read_index (isz : nat) (s : bstream) (fi : Z) : option (bstream * Z * nat) :=
    match nextN s isz (bytes64 fi) with
    | Some (s', b, k) => Some (s', val64 b, k)
    | None => None
    end.

  (** Outcome of the validation loop: left by the loop condition or [break], or [return false]. *)
  Inductive vres := VEnd (s : bstream) | VFalse.

  (** The loop of [_validate_packet], UplinkCommon.cpp:25-52. *)
  Fixpoint validate_loop (fuel : nat) (isz : nat) (lens : list nat) (s : bstream) (fi : Z)
           (upd_map : list bool) (checked : Z) : option vres :=
    if checked <? 8 * Z.of_nat (bs_len s) then
      match fuel with
      | O => None
      | S f =>
        match read_index isz s fi with
        | None => None
        | Some (s1, v, consumed) =>
          if v =? 0 then Some (VEnd s1)
          else
            let idx := Z.to_nat (v - 1) in
            let flen := get_field_length lens idx in
            if Nat.eqb flen 0 then Some VFalse
            else match nth_error upd_map idx with
                 | None => None
                 | Some seen =>
                   if (seen || negb (Nat.eqb consumed isz))%bool then Some VFalse
                   else match upd upd_map idx true with
                        | None => None
                        | Some map' =>
                          let (s2, c2) := seekG s1 (Z.of_nat flen) 1 in
                          if negb (c2 =? Z.of_nat flen) then Some VFalse
                          else validate_loop f isz lens s2 (v - 1) map' (checked + Z.of_nat consumed + c2)
                        end
                 end
        end
      end
    else Some (VEnd s).

  (** [_validate_packet], UplinkCommon.cpp:14-61. *)
  Definition validate_packet (isz : nat) (lens : list nat) (s : bstream) : option bool :=
    match validate_loop (8 * bs_len s) isz lens (bs_reset s) 0 (repeat false (length lens)) 0 with
    | None => None
    | Some VFalse => Some false
    | Some (VEnd s1) =>
      match nextN s1 8 [zero_byte] with
      | Some (_, [u8], consumed) => Some (negb (existsb (fun b => b) u8 || Nat.ltb 7 consumed))
      | _ => None
      end
    end.

  (** The loop of [_update_fields], UplinkCommon.cpp:69-90. *)
  Fixpoint update_loop (fuel : nat) (isz : nat) (s : bstream) (fi : Z) (consumed : Z)
           (fields : list wfield) : option (list wfield) :=
    if consumed <? 8 * Z.of_nat (bs_len s) then
      match fuel with
      | O => None
      | S f =>
        match read_index isz s fi with
        | None => None
        | Some (s1, v, c1) =>
          if v =? 0 then Some fields
          else
            let idx := Z.to_nat (v - 1) in
            match nth_error fields idx with
            | None => None
            | Some fld =>
              let flen := length (wf_bits fld) in
              match nextNv s1 flen (repeat false flen) with
              | None => None
              | Some (s2, bits, c2) =>
                match upd fields idx (mk_wf bits (deser idx bits (wf_val fld))) with
                | None => None
                | Some fields' =>
                  update_loop f isz s2 (v - 1) (consumed + Z.of_nat c1 + Z.of_nat c2) fields'
                end
              end
            end
        end
      end
    else Some fields.

  (** [_update_fields], UplinkCommon.cpp:63-91. *)
  Definition update_fields (isz : nat) (s : bstream) (fields : list wfield) : option (list wfield) :=
    update_loop (8 * bs_len s) isz (bs_reset s) 0 0 fields.

  (** What the consumer works on: the writable fields and the received packet (pointer [None] = null). *)
  Record ustate := mk_us { us_fields : list wfield; us_len : nat; us_buf : option (list byte) }.

  (** [UplinkConsumer::execute], UplinkConsumer.cpp:11-24 (with update_fields 26-32 and
      validate_packet 34-40). The stream spans the first [len] bytes of the radio buffer. *)
  Definition consumer_execute (st : ustate) : option ustate :=
    let n := length (us_fields st) in
    let isz := index_size n in
    match us_len st, us_buf st with
    | O, _ => Some st
    | _, None => Some st
    | len, Some buf =>
      let s := bs_make (firstn len buf) in
      match validate_packet isz (map (fun f => length (wf_bits f)) (us_fields st)) s with
      | None => None
      | Some true =>
        match update_fields isz s (us_fields st) with
        | Some fs => Some (mk_us fs 0 (us_buf st))
        | None => None
        end
      | Some false => Some (mk_us (us_fields st) 0 (us_buf st))
      end
    end.
End Uplink.

Arguments mk_wf {V}. Arguments wf_bits {V}. Arguments wf_val {V}.
Arguments mk_us {V}. Arguments us_fields {V}. Arguments us_len {V}. Arguments us_buf {V}.
Arguments update_loop {V}. Arguments update_fields {V}. Arguments consumer_execute {V}.

(** ** Ground side *)

(** Outcome of the producer: the stream, an exception, or (None) undefined behaviour. *)
Inductive pres := POk (s : bstream) | PThrow.

(** [add_entry], UplinkProducer.cpp:235-256.  [junk] is what the temporary stream's constructor reads
    past the end of the field's bit array (up to the next whole byte); it is left arbitrary. *)
Definition add_entry (isz : nat) (lens : list nat) (s : bstream) (val junk : list bool) (index : nat)
  : option pres :=
  let fsz := get_field_length lens index in
  if Nat.eqb fsz 0 then Some PThrow
  else
    match editN s isz (bytes64 (Z.of_nat index + 1)) with
    | None => None
    | Some (s1, _) =>
      match bs_of_bits (val ++ junk) with
      | None => None
      | Some tmp =>
        match editN_bs s1 fsz tmp with
        | None => None
        | Some (s2, _, _) => Some (POk s2)
        end
      end
    end.

(** The loop of [create_from_json], UplinkProducer.cpp:213-227, for a list of (field index, serialized
    bits, junk); the JSON parsing and the value checks of try_add_field (lines 26-178) happen before. *)
Fixpoint add_entries (isz : nat) (lens : list nat) (s : bstream) (es : list (nat * list bool * list bool))
  : option pres :=
  match es with
  | [] => Some (POk s)
  | (i, v, junk) :: t =>
    if has_next s then
      match add_entry isz lens s v junk i with
      | Some (POk s') => add_entries isz lens s' t
      | r => r
      end
    else Some PThrow
  end.

(** [max_possible_packet_size], UplinkProducer.cpp:17-22 (a number of bits, used as a number of bytes). *)
Definition max_packet (isz : nat) (lens : list nat) : nat :=
  fold_right (fun l acc => isz + l + acc)%nat O lens.

(** [create_sbd_from_json] / [create_from_json], UplinkProducer.cpp:201-233, 302-310: cleared buffer, all
    entries, length trimmed to the bytes used; [to_file] (285-295) refuses a packet its own
    validation rejects.  Result: the bytes of the message. *)
Definition create_packet (lens : list nat) (es : list (nat * list bool * list bool)) : option (option (list byte)) :=
  let isz := index_size (length lens) in
  let s0 := bs_make (repeat zero_byte (max_packet isz lens)) in
  match add_entries isz lens s0 es with
  | None => None
  | Some PThrow => Some None
  | Some (POk s) =>
    let n := ((bs_byte s * 8 + bs_bit s + 7) / 8)%nat in
    let msg := firstn n (bs_buf s) in
    match validate_packet isz lens (bs_make msg) with
    | None => None
    | Some true => Some (Some msg)
    | Some false => Some None
    end
  end.
