(** The debug console: src/common/debug_console.cpp:233-429 (commands from the test computer) and
    src/fsw/FCCode/DebugTask.cpp (stepping of control cycles).

    Bytes are numbers 0..255. ArduinoJson is not part of /repo: it is an arbitrary function [jlib].
    It is called on a [char*], so it parses in place: it may rewrite the buffer, and the strings of a
    parsed message are positions in that buffer, read when they are used. Printing to the serial
    port is modelled by the list of replies. State fields: their value is represented by what printing
    it gives, [deserialize] by a function from text to the new value (the readers of text are
    modelled in PrintModel.v). *)
From Verif Require Import Base.

Definition text := list Z.

(** ** Messages *)

(** A member of a parsed message, as the console looks at it: absent, a string (where it is, and the
    number the library reads in it), an integer, or something else (with its value as a number). *)
Inductive jval := JNull | JStr (at_ : nat) (num : Z) | JNum (z : Z) | JOther (num : Z).
Record jdoc := mk_doc { j_ok : bool; j_mode : jval; j_field : jval; j_val : jval; j_length : jval }.
(** [deserializeJson(doc, char pointer)]: given the buffer from the start of the message on; the result, and the
    buffer after it. Positions of strings are counted from the start of the message. *)
Definition jlib := text -> jdoc * text.

(** [isNull], [as<unsigned char>], [is<unsigned char>], conversion to [size_t] (32 bits on the Teensy) *)
Definition is_null (v : jval) : bool := match v with JNull => true | _ => false end.
Definition number (v : jval) : Z := match v with JNull => 0 | JStr _ n => n | JNum z => z | JOther n => n end.
Definition as_uchar (v : jval) : Z := let n := number v in if (0 <=? n) && (n <? 256) then n else 0.
Definition is_uchar (v : jval) : bool := match v with JNum z => (0 <=? z) && (z <? 256) | _ => false end.
Definition as_size (v : jval) : Z := let n := number v in if (0 <=? n) && (n <? 2 ^ 32) then n else 0.

(** A C string: the bytes before the first 0; [None] if there is none (reading past the array). *)
Fixpoint cstr (l : text) : option text :=
  match l with
  | [] => None
  | c :: t => if c =? 0 then Some [] else match cstr t with Some s => Some (c :: s) | None => None end
  end.
(** [as<const char pointer>()]: a null pointer ([Some None]) unless it is a string. [None]: not terminated. *)
Definition as_cstr (buf : text) (v : jval) : option (option text) :=
  match v with
  | JStr k _ => match cstr (skipn k buf) with Some s => Some (Some s) | None => None end
  | _ => Some None
  end.

(** ** The line, debug_console.cpp:238-272 *)

Definition buf_size : nat := 512.
Definition max_msgs : nat := 5.
Definition brace : Z := 123.

(** Desktop, line 258: [input.copy(buf, sizeof(buf))] into a buffer of zeros. On the Teensy, lines 260-271,
    the bytes up to the end of the line, at most 512, are read into the same zeros. *)
Definition load (line : text) : text := firstn buf_size (line ++ repeat 0 buf_size).

(** Where messages start, lines 279-286: the first five opening braces. *)
Fixpoint braces (k : nat) (l : text) : list nat :=
  match l with [] => [] | c :: t => if c =? brace then k :: braces (S k) t else braces (S k) t end.
Definition msg_starts (buf : text) : list nat := firstn max_msgs (braces 0 buf).

(** Parsing, lines 289-296. [msg_ok] has no initial value: [junk] is what the stack holds; the entry of a message that
    cannot be parsed is left as it is. *)
Definition shift_val (k : nat) (v : jval) : jval := match v with JStr i n => JStr (k + i) n | _ => v end.
Definition shift_doc (k : nat) (d : jdoc) : jdoc :=
  mk_doc (j_ok d) (shift_val k (j_mode d)) (shift_val k (j_field d)) (shift_val k (j_val d)) (shift_val k (j_length d)).
Fixpoint parse_all (lib : jlib) (starts : list nat) (junk : list bool) (buf : text) : list (bool * jdoc) * text :=
  match starts with
  | [] => ([], buf)
  | k :: ks =>
      let '(d, rest) := lib (skipn k buf) in
      let buf' := firstn k buf ++ rest in
      let '(ms, b) := parse_all lib ks (tl junk) buf' in
      ((j_ok d || hd false junk, shift_doc k d) :: ms, b)
  end.

(** ** What a message does, debug_console.cpp:300-427 *)

Inductive cmode := Unspecified | ReadMode | WriteMode.
Inductive cerror := InvalidFieldName | MissingMode | InvalidModeNotChar | InvalidMode | MissingFieldVal | InvalidFieldVal.
Inductive reply :=
  | RError (field : option text) (m : cmode) (e : cerror)
  | RField (field value : text)
  | RUplink (packet : text) (len : Z).

Record cfield := mk_cf { cf_value : text; cf_read : text -> option text }.
(** the registry's readable fields, the buffer behind "uplink.ptr", "uplink.len", what was printed *)
Record con := mk_con { c_reg : list (text * cfield); c_mt : text; c_len : Z; c_out : list reply }.

Fixpoint text_eqb (a b : text) : bool :=
  match a, b with [], [] => true | x :: a', y :: b' => (x =? y) && text_eqb a' b' | _, _ => false end.
(** [StateFieldRegistry::find_readable_field], the first field of that name (StateFieldRegistry.cpp) *)
Fixpoint find_cf (r : list (text * cfield)) (n : text) : option cfield :=
  match r with [] => None | (m, f) :: t => if text_eqb m n then Some f else find_cf t n end.
Fixpoint write_cf (r : list (text * cfield)) (n v : text) : list (text * cfield) :=
  match r with
  | [] => []
  | (m, f) :: t => if text_eqb m n then (m, mk_cf v (cf_read f)) :: t else (m, f) :: write_cf t n v
  end.
Definition say (c : con) (r : reply) : con := mk_con (c_reg c) (c_mt c) (c_len c) (c_out c ++ [r]).

(** [strtol(token, NULL, 16)] (C standard, 7.22.1.4): blanks, a sign, an optional 0x, hexadecimal digits. [None]:
    the array ends before a character that is no digit. The result is converted to [char]: only its low
    eight bits are kept ([long] saturates at 2^31-1 on the Teensy: tokens have at most 299 characters). *)
Definition hex_digit (c : Z) : option Z :=
  if (48 <=? c) && (c <=? 57) then Some (c - 48)
  else if (97 <=? c) && (c <=? 102) then Some (c - 87)
  else if (65 <=? c) && (c <=? 70) then Some (c - 55) else None.
Fixpoint hex_digits (l : text) (acc : Z) : option Z :=
  match l with
  | [] => None
  | c :: t => match hex_digit c with Some d => hex_digits t (16 * acc + d) | None => Some acc end
  end.
Definition blank (c : Z) : bool := (c =? 32) || ((9 <=? c) && (c <=? 13)).
Fixpoint skip_blanks (l : text) : text := match l with c :: t => if blank c then skip_blanks t else l | [] => [] end.
Definition saturate (b : Z) (neg : bool) (m : Z) : Z := if neg then Z.max (- b) (- m) else Z.min (b - 1) m.
Definition hex_prefix (l : text) : text :=
  match l with
  | z :: x :: d :: t => if (z =? 48) && ((x =? 120) || (x =? 88)) then match hex_digit d with Some _ => d :: t | None => l end else l
  | _ => l
  end.
Definition strtol16 (long_bits : Z) (l : text) : option Z :=
  let l := skip_blanks l in
  let '(neg, l) := match l with
                   | c :: t => if c =? 45 then (true, t) else if c =? 43 then (false, t) else (false, l)
                   | [] => (false, [])
                   end in
  match hex_digits (hex_prefix l) 0 with
  | Some m => Some (saturate (2 ^ (long_bits - 1)) neg m)
  | None => None
  end.

(** The copy of one token, lines 391-393: up to the next backslash; [None] past the end of either array. *)
Fixpoint copy_token (p token done_ : text) : option (text * text) :=
  match p with
  | [] => None
  | c :: t =>
      if c =? 92 then Some (done_ ++ token, p)
      else match token with [] => None | _ :: k => copy_token t k (done_ ++ [c]) end
  end.
(** The loop over the bytes of an uplink, lines 387-397. [len] bytes of the token are cleared. *)
Definition clear (n : nat) (l : text) : option text :=
  if Nat.ltb (length l) n then None else Some (repeat 0 n ++ skipn n l).
Fixpoint uplink_bytes (lb : Z) (todo len : nat) (p token : text) : option text :=
  match todo with
  | O => Some []
  | S k =>
      match p with
      | _ :: _ :: p' =>
          match clear len token with
          | None => None
          | Some t0 =>
              match copy_token p' t0 [] with
              | None => None
              | Some (t1, p'') =>
                  match strtol16 lb t1, uplink_bytes lb k len p'' t1 with
                  | Some v, Some l => Some (u8 v :: l)
                  | _, _ => None
                  end
              end
          end
      | _ => None
      end
  end.

(** The platform: size of a pointer and of [long], and what the array [token] of a given size holds
    at first (cut, or filled with zeros, to that size where it is used). *)
Record platform := mk_plat { pl_ptr : nat; pl_long : Z; pl_token : nat -> text }.

(** Case 'u', lines 363-424. [None]: undefined behaviour. First the decoding, lines 374-397. *)
Definition uplink_packet_size : nat := 300.
Definition uplink_data (pl : platform) (packet : text) (len : nat) : option text :=
  let sz := length packet in
  if Nat.ltb uplink_packet_size (sz + 2 + 1) then None
  else uplink_bytes (pl_long pl) len len (packet ++ [92; 120] ++ repeat 0 (uplink_packet_size - sz - 2))
         (firstn sz (pl_token pl sz ++ repeat 0 sz)).
(** Lines 399-407: only as many bytes of the old packet are cleared as a pointer has. *)
Definition deliver (pl : platform) (packet data : text) (len : nat) (c : con) : option con :=
  match clear (pl_ptr pl) (c_mt c) with
  | None => None
  | Some mt => if Nat.ltb (length mt) len then None
               else Some (say (mk_con (c_reg c) (data ++ skipn len mt) (Z.of_nat len) (c_out c)) (RUplink packet (Z.of_nat len)))
  end.
Definition do_uplink (pl : platform) (buf : text) (d : jdoc) (c : con) : option con :=
  match as_cstr buf (j_val d) with
  | Some (Some packet) =>
      let len := Z.to_nat (as_size (j_length d)) in
      match uplink_data pl packet len with
      | None => None
      | Some data => deliver pl packet data len c
      end
  | _ => None
  end.

(** One message; the result is the state and the value of the loop index afterwards (the loop of an uplink counts with the
    same variable, line 387). *)
Definition do_message (pl : platform) (buf : text) (i : nat) (d : jdoc) (c : con) : option (con * nat) :=
  if negb (as_uchar (j_mode d) =? 117) && is_null (j_field d) then Some (c, i)
  else
    match as_cstr buf (j_field d) with
    | None => None
    | Some name =>
        if is_null (j_mode d) then Some (say c (RError name Unspecified MissingMode), i)
        else if negb (is_uchar (j_mode d)) then Some (say c (RError name Unspecified InvalidModeNotChar), i)
        else
          let mode := as_uchar (j_mode d) in
          if mode =? 114 then
            match name with
            | None => None
            | Some n => match find_cf (c_reg c) n with
                        | None => Some (say c (RError name ReadMode InvalidFieldName), i)
                        | Some f => Some (say c (RField n (cf_value f)), i)
                        end
            end
          else if mode =? 119 then
            if is_null (j_val d) then Some (say c (RError name WriteMode MissingFieldVal), i)
            else
              match name with
              | None => None
              | Some n =>
                  match find_cf (c_reg c) n with
                  | None => Some (say c (RError name WriteMode InvalidFieldName), i)
                  | Some f =>
                      match as_cstr buf (j_val d) with
                      | Some (Some v) =>
                          match cf_read f v with
                          | None => Some (say c (RError name WriteMode InvalidFieldVal), i)
                          | Some v' => Some (say (mk_con (write_cf (c_reg c) n v') (c_mt c) (c_len c) (c_out c)) (RField n v'), i)
                          end
                      | _ => None
                      end
                  end
              end
          else if mode =? 117 then
            match do_uplink pl buf d c with Some c' => Some (c', Z.to_nat (as_size (j_length d))) | None => None end
          else Some (say c (RError name ReadMode InvalidMode), i)
    end.

(** The loop over the messages, lines 300-428, [fuel] turns of it. *)
Inductive ran := Returned (c : con) | Running | Undefined.
Fixpoint messages (fuel : nat) (pl : platform) (buf : text) (ms : list (bool * jdoc)) (i : nat) (c : con) : ran :=
  match fuel with
  | O => Running
  | S k =>
      match nth_error ms i with
      | None => Returned c
      | Some (ok, d) =>
          if negb ok then messages k pl buf ms (S i) c
          else match do_message pl buf i d c with
               | None => Undefined
               | Some (c', i') => messages k pl buf ms (S i') c'
               end
      end
  end.

(** [process_commands] on a line that has arrived; [junk] as above. *)
Definition process_line (fuel : nat) (pl : platform) (lib : jlib) (junk : list bool) (line : text) (c : con) : ran :=
  let buf := load line in
  let '(ms, buf') := parse_all lib (msg_starts buf) junk buf in
  messages fuel pl buf' ms 0 c.

(** ** [DebugTask::execute], DebugTask.cpp:20-41, in a build with the console (not FLIGHT) *)

(** "cycle.start", "cycle.auto", "true", "false" *)
Definition cycle_start : text := [99; 121; 99; 108; 101; 46; 115; 116; 97; 114; 116].
Definition cycle_auto : text := [99; 121; 99; 108; 101; 46; 97; 117; 116; 111].
Definition true_text : text := [116; 114; 117; 101].
Definition false_text : text := [102; 97; 108; 115; 101].
Definition flag (n : text) (c : con) : bool :=
  match find_cf (c_reg c) n with Some f => text_eqb (cf_value f) true_text | None => false end.

(** [proc] is [process_commands] on a line, [None] if it does not return. The waiting loop, lines 31-36, takes lines until
    one has left [cycle.start] or [cycle.auto] set; [None] also when the lines run out while it waits. Result: the state
    and the lines left. *)
Fixpoint wait_start (proc : text -> con -> option con) (lines : list text) (c : con) : option (con * list text) :=
  if flag cycle_start c || flag cycle_auto c then Some (c, lines)
  else match lines with
       | [] => None
       | l :: t => match proc l c with Some c' => wait_start proc t c' | None => None end
       end.
Definition unstart (c : con) : con := mk_con (write_cf (c_reg c) cycle_start false_text) (c_mt c) (c_len c) (c_out c).
Definition debug_task (proc : text -> con -> option con) (lines : list text) (c : con) : option (con * list text) :=
  let c := unstart c in
  if flag cycle_auto c then
    match lines with [] => Some (c, []) | l :: t => match proc l c with Some c' => Some (c', t) | None => None end end
  else wait_start proc lines c.
(** [n] control cycles, [work] being the tasks after this one. *)
Fixpoint cycles (proc : text -> con -> option con) (work : con -> con) (n : nat) (lines : list text) (c : con)
  : option (con * list text) :=
  match n with
  | O => Some (c, lines)
  | S k => match debug_task proc lines c with
           | None => None
           | Some (c', l) => cycles proc work k l (work c')
           end
  end.
