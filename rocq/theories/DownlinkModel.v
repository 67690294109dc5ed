(** Model of the downlink frame builder, /repo/src/fsw/FCCode/DownlinkProducer.cpp, and of the ground
    parser, /repo/src/gsw/parsers/src/DownlinkParser.cpp.

    The frame buffer (an array of bytes) is the list of its bits, most significant bit of each byte
    first: frame position [p] is bit [7 - p mod 8] of byte [p / 8], the order of
    [bit_array::to_string] (/repo/src/common/fixed_array.hpp:250-258).  [None] is an access outside an
    array (undefined behaviour). *)
From Verif Require Import Base BitArrayModel IntSerModel.

(** checked write of one bit at a frame position *)
Definition put (buf : list bool) (off : Z) (b : bool) : option (list bool) :=
  if off <? 0 then None else upd buf (Z.to_nat off) b.

(** [bit_array::to_string], fixed_array.hpp:250-258, of the given bits at [off]. *)
Fixpoint put_bits (buf : list bool) (off : Z) (bits : list bool) : option (list bool) :=
  match bits with
  | [] => Some buf
  | b :: t => match put buf off b with Some buf' => put_bits buf' (off + 1) t | None => None end
  end.

(** [num_bits_in_packet], DownlinkProducer.hpp:9 *)
Definition num_bits_in_packet : Z := 560.

(** the state of the frame builder: buffer, [packet_offset], [downlink_frame_offset] *)
Record fstate := mk_fs { fs_buf : list bool; fs_po : Z; fs_off : Z }.

(** [add_bits_to_downlink_frame], DownlinkProducer.cpp:74-109.  Line 99 addresses the byte
    [downlink_frame_offset / 70]; its bit 7 is frame position [8 * (offset / 70)].  A negative [x]
    would be converted to a huge [size_t] and the copy would run away: [None]. *)
Definition add_bits (bits : list bool) (st : fstate) : option fstate :=
  let fsz := Z.of_nat (length bits) in
  let overflow := s32 (u64 (u64 (fsz + fs_po st) - num_bits_in_packet)) in
  if overflow <=? 0 then
    match put_bits (fs_buf st) (fs_off st) bits with
    | Some b => Some (mk_fs b (fs_po st + fsz) (fs_off st + fsz))
    | None => None
    end
  else
    let x := fsz - overflow in
    if x <? 0 then None
    else
      match put_bits (fs_buf st) (fs_off st) (firstn (Z.to_nat x) bits) with
      | None => None
      | Some b1 =>
        let off1 := fs_off st + x in
        match put b1 (8 * (off1 / 70)) false with
        | None => None
        | Some b2 =>
          match put_bits b2 (off1 + 1) (skipn (Z.to_nat x) bits) with
          | None => None
          | Some b3 => Some (mk_fs b3 (1 + overflow) (off1 + 1 + overflow))
          end
        end
      end.

(** [DownlinkProducer::Flow], DownlinkProducer.hpp:79-137: id serializer, active flag, and for each field
    its bit array (for events: the stored bits; for others: the bits after serialize()). *)
Record flow := mk_flow { fl_sr : iser; fl_active : bool; fl_fields : list (list bool) }.
Definition fl_idbits (f : flow) : list bool := is_bits (fl_sr f).

(** [Flow::get_packet_size], DownlinkProducer.cpp:231-241. *)
Definition packet_size (f : flow) : Z :=
  Z.of_nat (length (fl_idbits f)) + fold_right (fun b acc => Z.of_nat (length b) + acc) 0 (fl_fields f).

(** [compute_downlink_size], DownlinkProducer.cpp:50-68, in bytes. *)
Definition compute_downlink_size (compute_max : bool) (flows : list flow) : Z :=
  let bits := 32 + fold_right (fun f acc => if fl_active f || compute_max then packet_size f + acc else acc) 0 flows in
  let bits' := bits + (bits + num_bits_in_packet - 1) / num_bits_in_packet in
  (bits' + 7) / 8.

Definition bind {A B} (o : option A) (f : A -> option B) : option B :=
  match o with Some a => f a | None => None end.

Fixpoint add_list (l : list (list bool)) (st : fstate) : option fstate :=
  match l with
  | [] => Some st
  | b :: t => bind (add_bits b st) (add_list t)
  end.

(** One flow of the loop of [execute], DownlinkProducer.cpp:134-159. *)
Definition add_flow (f : flow) (st : fstate) : option fstate :=
  if fl_active f then bind (add_bits (fl_idbits f) st) (add_list (fl_fields f)) else Some st.
Fixpoint add_flows (l : list flow) (st : fstate) : option fstate :=
  match l with
  | [] => Some st
  | f :: t => bind (add_flow f st) (add_flows t)
  end.

(** Frame construction of [execute], DownlinkProducer.cpp:123-167; [cc] are the bits of the cycle
    count.  The loop of lines 164-167 clears positions [off .. 8*(off/8)+7]. *)
Definition build_frame (cc : list bool) (flows : list flow) (buf : list bool) : option fstate :=
  bind (put buf 0 true) (fun b0 =>
  bind (add_bits cc (mk_fs b0 1 1)) (fun st1 =>
  bind (add_flows flows st1) (fun st2 =>
  bind (put_bits (fs_buf st2) (fs_off st2) (repeat false (Z.to_nat (8 - fs_off st2 mod 8)))) (fun b3 =>
  Some (mk_fs b3 (fs_po st2) (fs_off st2)))))).

(** ** Flow table commands *)

(** Outcome of a step that may fail an assertion or be undefined. *)
Inductive outcome (A : Type) := Done (a : A) | Abort | Undef.
Arguments Done {A}. Arguments Abort {A}. Arguments Undef {A}.

(** [Flow::operator=(Flow&&)], DownlinkProducer.hpp:110-117: the field pointers are copied by index into
    the existing list; an index past its end is undefined. *)
Definition flow_assign (dst src : flow) : option flow :=
  if Nat.ltb (length (fl_fields dst)) (length (fl_fields src)) then None
  else Some (mk_flow (fl_sr src) (fl_active src)
                     (fl_fields src ++ skipn (length (fl_fields src)) (fl_fields dst))).

(** [std::swap] of two flows: a temporary (copy constructor, which copies the list whole,
    DownlinkProducer.hpp:122-136), then two move assignments. *)
Definition flow_swap (l : list flow) (i j : nat) : option (list flow) :=
  match nth_error l i, nth_error l j with
  | Some a, Some b =>
    bind (flow_assign a b) (fun a' =>
    bind (upd l i a') (fun l1 =>
    bind (flow_assign b a) (fun b' => upd l1 j b')))
  | _, _ => None
  end.

(** the search loop of [shift_flow_priorities], DownlinkProducer.cpp:274-284: last match, else 0 *)
Fixpoint find_idx (l : list flow) (id : Z) (idx acc : nat) : option nat :=
  match l with
  | [] => Some acc
  | f :: t => match deserialize (fl_sr f) with
              | Some v => find_idx t id (S idx) (if v =? id then idx else acc)
              | None => None
              end
  end.

(** lines 286-290: for (i = idx1; i > idx2; i--) swap(flows[i], flows[i-1]) *)
Fixpoint shift_down (n : nat) (l : list flow) (i : nat) : option (list flow) :=
  match n with
  | O => Some l
  | S k => bind (flow_swap l i (i - 1)) (fun l' => shift_down k l' (i - 1))
  end.
(** lines 291-295: for (i = idx1; i < idx2; i++) swap(flows[i], flows[i+1]) *)
Fixpoint shift_up (n : nat) (l : list flow) (i : nat) : option (list flow) :=
  match n with
  | O => Some l
  | S k => bind (flow_swap l i (i + 1)) (fun l' => shift_up k l' (i + 1))
  end.

(** [shift_flow_priorities], DownlinkProducer.cpp:262-296. *)
Definition shift_flow_priorities (l : list flow) (id1 id2 : Z) : outcome (list flow) :=
  if (Z.of_nat (length l) <? id1) || (Z.of_nat (length l) <? id2) then Abort
  else
    match find_idx l id1 0 0, find_idx l id2 0 0 with
    | Some i1, Some i2 =>
      match (if Nat.ltb i2 i1 then shift_down (i1 - i2) l i1
             else if Nat.ltb i1 i2 then shift_up (i2 - i1) l i1 else Some l) with
      | Some l' => Done l'
      | None => Undef
      end
    | _, _ => Undef
    end.

(** [toggle_flow], DownlinkProducer.cpp:243-260 (the counter of active flows is not modelled: nothing
    reads it). *)
Fixpoint toggle_loop (l : list flow) (id : Z) : option (list flow) :=
  match l with
  | [] => Some []
  | f :: t => match deserialize (fl_sr f) with
              | None => None
              | Some v => if v =? id then Some (mk_flow (fl_sr f) (negb (fl_active f)) (fl_fields f) :: t)
                          else bind (toggle_loop t id) (fun t' => Some (f :: t'))
              end
  end.
Definition toggle_flow (l : list flow) (id : Z) : outcome (list flow) :=
  if Z.of_nat (length l) <? id then Abort
  else match toggle_loop l id with Some l' => Done l' | None => Undef end.

(** The producer: flow table, frame buffer, published size, and the three command fields. *)
Record dstate := mk_ds { ds_flows : list flow; ds_buf : list bool; ds_size : Z;
                         ds_shift1 : Z; ds_shift2 : Z; ds_toggle : Z }.

Definition obind {A B} (o : outcome A) (f : A -> outcome B) : outcome B :=
  match o with Done a => f a | Abort => Abort | Undef => Undef end.

(** [DownlinkProducer::execute], DownlinkProducer.cpp:111-180. *)
Definition dl_execute (cc : list bool) (d : dstate) : outcome dstate :=
  let size := compute_downlink_size false (ds_flows d) in
  match build_frame cc (ds_flows d) (ds_buf d) with
  | None => Undef
  | Some fs =>
    let d1 := mk_ds (ds_flows d) (fs_buf fs) size (ds_shift1 d) (ds_shift2 d) (ds_toggle d) in
    obind (if (0 <? ds_shift1 d1) && (0 <? ds_shift2 d1)
           then obind (shift_flow_priorities (ds_flows d1) (ds_shift1 d1) (ds_shift2 d1))
                  (fun l => Done (mk_ds l (ds_buf d1) (ds_size d1) 0 0 (ds_toggle d1)))
           else Done d1) (fun d2 =>
    if 0 <? ds_toggle d2
    then obind (toggle_flow (ds_flows d2) (ds_toggle d2))
           (fun l => Done (mk_ds l (ds_buf d2) (ds_size d2) (ds_shift1 d2) (ds_shift2 d2) 0))
    else Done d2)
  end.

(** ** Construction, [init_flows] / [Flow::Flow], DownlinkProducer.cpp:16-48 and 192-229 *)

(** the id serializer for a table of [n] flows: Serializer<unsigned char>(n) *)
Definition id_serializer (n : nat) : option iser := iser_make_auto UChar 0 (u8 (Z.of_nat n)).

(** One flow. [init_flows] also looks each id up in a set [ids], DownlinkProducer.cpp:29-36, which nothing is
    ever added to, so this look-up never finds anything and is not in the model. *)
Definition make_flow (n : nat) (fd : Z * bool * list (list bool)) : outcome flow :=
  let '(id, act, fields) := fd in
  if (Z.of_nat n <? id) || (id =? 0) then Abort
  else match bind (id_serializer n) (fun s => serialize s id) with
       | None => Undef
       | Some sr => let f := mk_flow sr act fields in
                    if num_bits_in_packet - 1 - 32 <? packet_size f then Abort else Done f
       end.
Fixpoint make_flows (n : nat) (fds : list (Z * bool * list (list bool))) : outcome (list flow) :=
  match fds with
  | [] => Done []
  | fd :: t => obind (make_flow n fd) (fun f => obind (make_flows n t) (fun l => Done (f :: l)))
  end.
(** The buffer's initial contents are whatever [new char[]] returns: [junk]. *)
Definition init_flows (fds : list (Z * bool * list (list bool))) (junk : list bool) : outcome dstate :=
  obind (make_flows (length fds) fds) (fun l =>
  let size := compute_downlink_size true l in
  Done (mk_ds l (firstn (8 * Z.to_nat size) (junk ++ repeat false (8 * Z.to_nat size))) size 0 0 0)).

(** ** The ground parser *)

(** A parsed flow: id and the bits given to each of its fields (values are the fields' own decoding). *)
Definition pflow := (Z * list (list bool))%type.
Inductive perr := NoError | IdIncomplete | DuplicateId (id : Z) | IdInvalid (id : Z).
Record presult := mk_pr { pr_cc : list bool; pr_flows : list pflow; pr_err : perr }.

(** [frame_bits.erase(begin + k)], erasing at the end is undefined; [eoe] is what the library does
    then ([fun _ => None] in the language; libstdc++ drops the last element). *)
Definition erase_at (eoe : list bool -> option (list bool)) (l : list bool) (k : Z) : option (list bool) :=
  if k <? Z.of_nat (length l) then Some (firstn (Z.to_nat k) l ++ skipn (S (Z.to_nat k)) l)
  else if k =? Z.of_nat (length l) then eoe l else None.

(** Step 2, DownlinkParser.cpp:42-44 and 254-256: i from size/560 down to 0. *)
Fixpoint strip_headers (eoe : list bool -> option (list bool)) (i : nat) (l : list bool) : option (list bool) :=
  match erase_at eoe l (Z.of_nat i * num_bits_in_packet) with
  | None => None
  | Some l' => match i with O => Some l' | S k => strip_headers eoe k l' end
  end.

(** Taking the first [n] bits; fewer available is undefined (iterator past the end). *)
Definition take (n : nat) (l : list bool) : option (list bool * list bool) :=
  if Nat.ltb (length l) n then None else Some (firstn n l, skipn n l).

(** The fields of a flow, DownlinkParser.cpp:133-178 and 341-386. *)
Fixpoint take_fields (ws : list nat) (l : list bool) : option (list (list bool) * list bool) :=
  match ws with
  | [] => Some ([], l)
  | w :: t => bind (take w l) (fun p => bind (take_fields t (snd p)) (fun q => Some (fst p :: fst q, snd q)))
  end.

(** The search of the flow by id, DownlinkParser.cpp:101-109 and 309-317. *)
Fixpoint find_flow (l : list flow) (id : Z) : option (option flow) :=
  match l with
  | [] => Some None
  | f :: t => match deserialize (fl_sr f) with
              | None => None
              | Some v => if v =? id then Some (Some f) else find_flow t id
              end
  end.

(** The loop of Step 4, DownlinkParser.cpp:61-179 and 273-387; [fuel] at least the number of bits plus one
    ([None] when exhausted). *)
Fixpoint parse_loop (fuel : nat) (idsr : iser) (flows : list flow) (l : list bool) (found : list pflow)
  : option (list pflow * perr) :=
  match l with
  | [] => Some (rev found, NoError)
  | _ =>
    match fuel with
    | O => None
    | S k =>
      if Nat.ltb (length l) (length (is_bits idsr)) then Some (rev found, IdIncomplete)
      else
        let w := length (is_bits idsr) in
        match deserialize (set_bits idsr (firstn w l)) with
        | None => None
        | Some id =>
          if id =? 0 then Some (rev found, NoError)
          else if existsb (fun pf => fst pf =? id) found then Some (rev found, DuplicateId id)
          else
            match find_flow flows id with
            | None => None
            | Some None => Some (rev ((id, []) :: found), IdInvalid id)
            | Some (Some f) =>
              bind (take_fields (map (@length bool) (fl_fields f)) (skipn w l)) (fun p =>
              parse_loop k idsr flows (snd p) ((id, fst p) :: found))
            end
        end
    end
  end.

(** Steps 2 to 4 on the bits of a frame (Step 1, lines 33-39 and 245-251, lists each byte's bits from the
    most significant down: the representation used here). *)
Definition parse_frame (eoe : list bool -> option (list bool)) (flows : list flow) (bits : list bool)
  : option presult :=
  bind (strip_headers eoe (Z.to_nat (Z.of_nat (length bits) / num_bits_in_packet)) bits) (fun l =>
  bind (take 32 l) (fun p =>
  bind (id_serializer (length flows)) (fun idsr =>
  bind (parse_loop (S (length (snd p))) idsr flows (snd p) []) (fun r =>
  Some (mk_pr (fst p) (fst r) (snd r)))))).

(** [check_is_first_packet], DownlinkParser.cpp:23-200: flows 1 and 2 were both found in the packet. *)
Definition is_first_packet (eoe : list bool -> option (list bool)) (flows : list flow) (bits : list bool)
  : option bool :=
  bind (parse_frame eoe flows bits) (fun r =>
  Some (existsb (fun pf => fst pf =? 1) (pr_flows r) && existsb (fun pf => fst pf =? 2) (pr_flows r))).

(** [process_downlink_packet], DownlinkParser.cpp:202-391; the parser's state is [most_recent_frame].
    Result: new state and report. *)
Definition process_packet (eoe : list bool -> option (list bool)) (flows : list flow) (recent packet : list bool)
  : option (list bool * presult) :=
  bind (is_first_packet eoe flows packet) (fun first =>
  let recent' := (if first then [] else recent) ++ packet in
  bind (parse_frame eoe flows recent') (fun r => Some (recent', r))).
