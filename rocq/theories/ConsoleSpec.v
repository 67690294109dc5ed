(** What the test computer asks for on the console. *)
From Verif Require Import Base ConsoleModel.

Inductive request := Read (field : text) | Write (field value : text) | Uplink (bytes : text).

(** What carrying out a request means. *)
Definition answer (q : request) (c : con) : con :=
  match q with
  | Read n => say c match find_cf (c_reg c) n with
                    | Some f => RField n (cf_value f)
                    | None => RError (Some n) ReadMode InvalidFieldName
                    end
  | Write n v =>
      match find_cf (c_reg c) n with
      | None => say c (RError (Some n) WriteMode InvalidFieldName)
      | Some f => match cf_read f v with
                  | None => say c (RError (Some n) WriteMode InvalidFieldVal)
                  | Some v' => say (mk_con (write_cf (c_reg c) n v') (c_mt c) (c_len c) (c_out c)) (RField n v')
                  end
      end
  | Uplink _ => c
  end.
Definition answers (qs : list request) (c : con) : con := fold_left (fun c q => answer q c) qs c.

(** How the test computer writes the bytes of an uplink (ptest/usb_session.py:376): backslash, x and the
    byte in hexadecimal without leading zero. *)
Definition digit (d : Z) : Z := if d <? 10 then 48 + d else 87 + d.
Definition hex (b : Z) : text := if b <? 16 then [digit b] else [digit (b / 16); digit (b mod 16)].
Definition packet_text (bytes : text) : text := flat_map (fun b => 92 :: 120 :: hex b) bytes.

(** The library finds the request [q] in the message [m], wherever it stands in the buffer: what it rewrites is the message
    itself, and the strings lie in it. *)
Definition string_in (m : text) (v : jval) (s : text) : Prop :=
  exists k num rest, v = JStr k num /\ (k <= length m)%nat /\ skipn k m = s ++ 0 :: rest /\ ~ In 0 s.
Definition finds (m : text) (d : jdoc) (q : request) : Prop :=
  match q with
  | Read n => j_mode d = JNum 114 /\ string_in m (j_field d) n
  | Write n v => j_mode d = JNum 119 /\ string_in m (j_field d) n /\ string_in m (j_val d) v
  | Uplink bytes => j_mode d = JNum 117 /\ j_field d = JNull /\ string_in m (j_val d) (packet_text bytes) /\
                    j_length d = JNum (Z.of_nat (length bytes))
  end.
Definition says (lib : jlib) (m : text) (q : request) : Prop :=
  exists d m', length m' = length m /\ j_ok d = true /\ finds m' d q /\ forall after, lib (m ++ after) = (d, m' ++ after).

(** A message is one brace and what follows it up to the next. *)
Definition message (m : text) : Prop := exists body, m = brace :: body /\ ~ In brace body.
Definition line_of (parts : list (text * text)) (tail : text) : text := flat_map (fun p => fst p ++ snd p) parts ++ tail.

(** ** Stepping *)

(** The reader of a yes-or-no field: "true" or "false". *)
Definition bool_read (t : text) : option text :=
  if text_eqb t true_text then Some true_text else if text_eqb t false_text then Some false_text else None.
(** What a line of requests leaves in "cycle.start", which is off before it. *)
Definition starts (qs : list request) : bool :=
  fold_left (fun s q => match q with
                        | Write n v => if text_eqb n cycle_start then (if text_eqb v true_text then true else if text_eqb v false_text then false else s) else s
                        | _ => s
                        end) qs false.
(** A line of reads and writes that leaves "cycle.auto" alone. *)
Definition plain (q : request) : Prop :=
  match q with Read _ => True | Write n _ => n <> cycle_auto | Uplink _ => False end.
Definition plain_line (lib : jlib) (line : text) (qs : list request) : Prop :=
  exists parts tail, line = line_of parts tail /\ ~ In brace tail /\ (length parts <= 5)%nat /\ (length line <= 512)%nat /\
    Forall2 (fun p q => ~ In brace (fst p) /\ message (snd p) /\ says lib (snd p) q) parts qs /\ Forall plain qs.
(** The two fields of the console's task are registered, and automatic cycling is off. *)
Definition stepping (c : con) : Prop :=
  (exists v, find_cf (c_reg c) cycle_start = Some (mk_cf v bool_read)) /\ flag cycle_auto c = false.
