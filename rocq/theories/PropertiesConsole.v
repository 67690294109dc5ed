(** The debug console and single stepping of control cycles. *)
From Coq Require Import String.
From Verif Require Import Base ConsoleModel ConsoleSpec ConsoleProofs ConsoleWitness.

(** C148.  A line of up to five reads and writes: all are carried out, in order, once each; for every library, whatever the
    stack held. What is missing: uplinks that are not last, strings with braces, a sixth message. *)
Theorem C148_messages_partial : forall fuel pl lib junk parts qs tail c,
  Forall2 (fun p q => ~ In brace (fst p) /\ message (snd p) /\ says lib (snd p) q) parts qs -> ~ In brace tail ->
  (length parts <= 5)%nat -> (length (line_of parts tail) <= 512)%nat ->
  Forall (fun q => match q with Uplink _ => False | _ => True end) qs -> (5 < fuel)%nat ->
  process_line fuel pl lib junk (line_of parts tail) c = Returned (answers qs c).
Proof. exact line_rw. Qed.
Print Assumptions C148_messages_partial.
Example C148_case : Forall2 (fun p q => ~ In brace (fst p) /\ message (snd p) /\ says mini (snd p) q)
    [([], m_write); (tx ", ", m_read)] [Write (tx "a.b") (tx "5"); Read (tx "a.b")] /\
  seen (process_line 6 teensy mini [] (line_of [([], m_write); (tx ", ", m_read)] (tx " ")) c0) =
  Some ([(tx "a.b", tx "5"); (cycle_start, true_text); (cycle_auto, false_text)], repeat 9 6, 0,
        [RField (tx "a.b") (tx "5"); RField (tx "a.b") (tx "5")]).
Proof.
  split; [|vm_compute; reflexivity]. constructor; [|constructor; [|constructor]]; cbn [fst snd].
  - split; [intros []|]. split; [apply is_message; vm_compute; reflexivity|apply mini_write].
  - split; [vm_compute; lia|]. split; [apply is_message; vm_compute; reflexivity|apply mini_read].
Qed.

(** C148.  The same with an uplink in the last place (see C149 for what becomes of it). *)
Theorem C148_uplink_last_partial : forall fuel pl lib junk parts qs bytes tail c,
  Forall2 (fun p q => ~ In brace (fst p) /\ message (snd p) /\ says lib (snd p) q) parts (qs ++ [Uplink bytes]) -> ~ In brace tail ->
  (length parts <= 5)%nat -> (length (line_of parts tail) <= 512)%nat ->
  Forall (fun q => match q with Uplink _ => False | _ => True end) qs -> (5 < fuel)%nat ->
  9 <= pl_long pl -> Forall (fun b => 0 <= b < 256) bytes -> (3 <= length bytes <= 74)%nat -> (length qs <= length bytes)%nat ->
  (length bytes <= length (c_mt c))%nat -> (pl_ptr pl <= length (c_mt c))%nat ->
  exists c', process_line fuel pl lib junk (line_of parts tail) c = Returned c' /\
    c_reg c' = c_reg (answers qs c) /\ c_len c' = Z.of_nat (length bytes) /\ firstn (length bytes) (c_mt c') = bytes /\
    length (c_mt c') = length (c_mt (answers qs c)) /\
    c_out c' = c_out (answers qs c) ++ [RUplink (packet_text bytes) (Z.of_nat (length bytes))].
Proof. exact line_up. Qed.
Print Assumptions C148_uplink_last_partial.
Example C148_uplink_last_case :
  Forall2 (fun p q => ~ In brace (fst p) /\ message (snd p) /\ says mini (snd p) q) [([], m_write); ([], m_up3)]
    ([Write (tx "a.b") (tx "5")] ++ [Uplink [65; 5; 255]]) /\
  seen (process_line 6 teensy mini [] (line_of [([], m_write); ([], m_up3)] []) c0) =
  Some ([(tx "a.b", tx "5"); (cycle_start, true_text); (cycle_auto, false_text)], [65; 5; 255; 0; 9; 9], 3,
        [RField (tx "a.b") (tx "5"); RUplink (tx "\x41\x5\xff") 3]).
Proof.
  split; [|vm_compute; reflexivity]. constructor; [|constructor; [|constructor]]; cbn [fst snd].
  - split; [intros []|]. split; [apply is_message; vm_compute; reflexivity|apply mini_write].
  - split; [intros []|]. split; [apply is_message; vm_compute; reflexivity|apply mini_up3].
Qed.

(** C148 is false: what follows an uplink on a line is passed over (the loop of the uplink counts with the same
    variable). *)
Theorem C148_skipped_refuted : exists lib parts qs c,
  Forall2 (fun p q => ~ In brace (fst p) /\ message (snd p) /\ says lib (snd p) q) parts qs /\ (length parts <= 5)%nat /\
  (length (line_of parts []) <= 512)%nat /\ In (Write (tx "a.b") (tx "5")) qs /\
  value_of (tx "a.b") (process_line 6 teensy lib [] (line_of parts []) c) = Some (tx "7").
Proof.
  exists mini, [([], m_up3); ([], m_write)], [Uplink [65; 5; 255]; Write (tx "a.b") (tx "5")], c0.
  split; [|split; [cbn; lia|split; [vm_compute; lia|split; [right; left; reflexivity|vm_compute; reflexivity]]]].
  constructor; [|constructor; [|constructor]]; cbn [fst snd]; (split; [intros []|]; split; [apply is_message; vm_compute; reflexivity|]).
  - apply mini_up3.
  - apply mini_write.
Qed.
Print Assumptions C148_skipped_refuted.

(** C148 is false: a sixth message on a line is not seen. *)
Theorem C148_sixth_refuted : exists lib parts qs c,
  Forall2 (fun p q => ~ In brace (fst p) /\ message (snd p) /\ says lib (snd p) q) parts qs /\
  (length (line_of parts []) <= 512)%nat /\ In (Write (tx "a.b") (tx "5")) qs /\
  value_of (tx "a.b") (process_line 6 teensy lib [] (line_of parts []) c) = Some (tx "7").
Proof.
  exists mini, (repeat ([], m_read) 5 ++ [([], m_write)]), (repeat (Read (tx "a.b")) 5 ++ [Write (tx "a.b") (tx "5")]), c0.
  split; [|split; [vm_compute; lia|split; [apply in_or_app; right; left; reflexivity|vm_compute; reflexivity]]].
  assert (R : part_says mini ([], m_read) (Read (tx "a.b"))).
  { split; [intros []|]. split; [apply is_message; vm_compute; reflexivity|apply mini_read]. }
  cbn [repeat app]. do 5 (constructor; [exact R|]). constructor; [|constructor]. split; [intros []|].
  split; [apply is_message; vm_compute; reflexivity|apply mini_write].
Qed.
Print Assumptions C148_sixth_refuted.

(** C148 is false: text in a string that looks like a message is carried out as one (the library has unescaped it in
    place). The line holds a single write of that text to an unknown field; field a.b is written. *)
Theorem C148_in_string_refuted : exists line v c, j_ok (fst (mini line)) = true /\ j_mode (fst (mini line)) = JNum 119 /\
  as_cstr (snd (mini (load line))) (j_field (fst (mini line))) = Some (Some (tx "z")) /\
  as_cstr (snd (mini (load line))) (j_val (fst (mini line))) = Some (Some v) /\
  value_of (tx "a.b") (process_line 6 teensy mini [] line c) = Some (tx "9").
Proof.
  exists (tx "{""mode"":119,""field"":""z"",""val"":""{\""mode\"":119,\""field\"":\""a.b\"",\""val\"":\""9\""}""}"), (tx "{""mode"":119,""field"":""a.b"",""val"":""9""}"), c0.
  repeat split; vm_compute; reflexivity.
Qed.
Print Assumptions C148_in_string_refuted.

(** C149.  An uplink of 3 to 74 bytes entered as the test computer writes it stands in the packet buffer, byte for byte, with
    its length. What is missing: one or two bytes, and lengths that do not agree with the text. *)
Theorem C149_uplink_partial : forall fuel pl lib junk m bytes tail c,
  message m -> says lib m (Uplink bytes) -> ~ In brace tail -> (length (m ++ tail) <= 512)%nat -> (5 < fuel)%nat ->
  9 <= pl_long pl -> Forall (fun b => 0 <= b < 256) bytes -> (3 <= length bytes <= 74)%nat ->
  (length bytes <= length (c_mt c))%nat -> (pl_ptr pl <= length (c_mt c))%nat ->
  exists c', process_line fuel pl lib junk (m ++ tail) c = Returned c' /\
    c_len c' = Z.of_nat (length bytes) /\ firstn (length bytes) (c_mt c') = bytes /\ c_reg c' = c_reg c.
Proof.
  intros fuel pl lib junk m bytes tail c HM HS NT L HF HL HB HN M1 M2.
  destruct (line_up fuel pl lib junk [([], m)] [] bytes tail c) as (c' & E & (R & LN & FB & _)); try assumption.
  - constructor; [|constructor]. split; [intros []|]. split; assumption.
  - cbn. lia.
  - cbn [line_of flat_map fst snd app]. rewrite app_nil_r. exact L.
  - constructor.
  - cbn. lia.
  - unfold line_of in E. cbn [flat_map fst snd app] in E. rewrite app_nil_r in E. exists c'. split; [exact E|]. auto.
Qed.
Print Assumptions C149_uplink_partial.
Example C149_case : message m_up3 /\ says mini m_up3 (Uplink [65; 5; 255]) /\
  seen (process_line 6 teensy_used mini [] m_up3 c0) =
  Some ([(tx "a.b", tx "7"); (cycle_start, true_text); (cycle_auto, false_text)], [65; 5; 255; 0; 9; 9], 3,
        [RUplink (tx "\x41\x5\xff") 3]).
Proof. split; [apply is_message; vm_compute; reflexivity|]. split; [apply mini_up3|vm_compute; reflexivity]. Qed.

(** C149 is false of one or two bytes: a token is cleared up to the number of bytes of the packet, so two digits are followed
    by whatever the stack held, which is read as further digits. *)
Theorem C149_short_refuted : exists pl m bytes c c', message m /\ says mini m (Uplink bytes) /\ Forall (fun b => 0 <= b < 256) bytes /\
  process_line 6 pl mini [] m c = Returned c' /\ c_len c' = Z.of_nat (length bytes) /\ firstn (length bytes) (c_mt c') <> bytes.
Proof.
  pose (pl := mk_plat 4 32 (fun n => repeat 55 3 ++ repeat 0 n)).
  pose (c' := match process_line 6 pl mini [] m_up2 c0 with Returned c => c | _ => c0 end).
  exists pl, m_up2, [65; 66], c0, c'. split; [apply is_message; vm_compute; reflexivity|]. split; [apply mini_up2|].
  split; [repeat constructor; lia|]. split; [vm_compute; reflexivity|]. split; [vm_compute; reflexivity|]. vm_compute. discriminate.
Qed.
Print Assumptions C149_short_refuted.

(** C149 is false of a length larger than the text: memory past the text is read. *)
Theorem C149_length_refuted : exists m c, message m /\ j_ok (fst (mini m)) = true /\ j_mode (fst (mini m)) = JNum 117 /\
  process_line 6 teensy mini [] m c = Undefined.
Proof.
  exists (tx "{""mode"":117,""val"":""\\x41\\x42\\x43"",""length"":4}"), c0.
  split; [apply is_message; vm_compute; reflexivity|]. repeat split; vm_compute; reflexivity.
Qed.
Print Assumptions C149_length_refuted.

(** C150.  Messages that cannot be read change nothing and are not answered, if the stack held zeros where [msg_ok] lies. *)
Theorem C150_ignored_partial : forall fuel pl lib junk line c, (forall l, j_ok (fst (lib l)) = false) -> forallb negb junk = true ->
  (5 < fuel)%nat -> process_line fuel pl lib junk line c = Returned c.
Proof. exact all_rejected. Qed.
Print Assumptions C150_ignored_partial.
Example C150_case : msg_starts (load (tx "{a}{b")) = [0; 3]%nat /\
  seen (process_line 6 teensy (fun l => (no_doc, l)) [false; false] (tx "{a}{b") c0) = seen (Returned c0).
Proof. split; vm_compute; reflexivity. Qed.

(** C150 is false: [msg_ok] is not initialised; what the library had read before it gave up is acted on. *)
Theorem C150_unreadable_refuted : exists lib line junk c, j_ok (fst (lib (load line))) = false /\
  value_of (tx "a.b") (Returned c) = Some (tx "7") /\ value_of (tx "a.b") (process_line 6 teensy lib junk line c) = Some (tx "5").
Proof. exists mini, m_cut, [true], c0. repeat split; vm_compute; reflexivity. Qed.
Print Assumptions C150_unreadable_refuted.

(** C151.  The console returns, whatever the library made of the line, unless an uplink stands at a place on the line higher
    than its length. *)
Theorem C151_returns_partial : forall pl lib junk line c,
  let '(ms, buf) := parse_all lib (msg_starts (load line)) junk (load line) in
  (forall i ok d, nth_error ms i = Some (ok, d) -> as_uchar (j_mode d) = 117 -> (i <= Z.to_nat (as_size (j_length d)))%nat) ->
  process_line (S (length ms)) pl lib junk line c <> Running.
Proof.
  intros pl lib junk line c. unfold process_line. destruct (parse_all _ _ _ _) as [ms buf]. intros H. apply messages_return; [exact H|lia|lia].
Qed.
Print Assumptions C151_returns_partial.
Example C151_case : let ms := fst (parse_all mini (msg_starts (load (m_read ++ m_up3))) [] (load (m_read ++ m_up3))) in
  length ms = 2%nat /\ (forall i ok d, nth_error ms i = Some (ok, d) -> as_uchar (j_mode d) = 117 -> (i <= Z.to_nat (as_size (j_length d)))%nat).
Proof.
  intros ms. assert (E : exists a b, ms = [a; b] /\ j_mode (snd b) = JNum 117 /\ j_length (snd b) = JNum 3).
  { eexists _, _. split; [vm_compute; reflexivity|]. split; reflexivity. }
  clearbody ms. destruct E as ([oa da] & [ob db] & -> & M & L). cbn [snd] in M, L. split; [reflexivity|].
  intros [|[|[|i]]] ok d H; try discriminate H; injection H as <- <-; intros _.
  - apply Nat.le_0_l.
  - rewrite L. change (as_size (JNum 3)) with 3. change (Z.to_nat 3) with 3%nat. repeat constructor.
Qed.

(** C151 is false: two reads and an uplink of one byte on a line are carried out for ever. *)
Theorem C151_forever_refuted : exists pl lib junk line c, forall fuel, process_line fuel pl lib junk line c = Running.
Proof. exists teensy, mini, [], stuck_line, c0. exact stuck_forever. Qed.
Print Assumptions C151_forever_refuted.

(** C152.  With automatic cycling off, [n] control cycles are run exactly if [n] of the lines left "cycle.start" set, and the
    n-th of them is the last line taken; for every library and whatever the rest of a cycle does to other fields. *)
Theorem C152_one_cycle_per_start : forall pl lib junk work n,
  (forall c, find_cf (c_reg (work c)) cycle_start = find_cf (c_reg c) cycle_start) ->
  (forall c, find_cf (c_reg (work c)) cycle_auto = find_cf (c_reg c) cycle_auto) ->
  forall ls c, Forall (fun p => plain_line lib (fst p) (snd p)) ls -> stepping c ->
  match cycles (fun l c => match process_line 6 pl lib junk l c with Returned c' => Some c' | _ => None end) work n (map fst ls) c with
  | Some (c', left_) => exists u r, ls = u ++ r /\ left_ = map fst r /\ length (filter (fun p => starts (snd p)) u) = n /\
                        (forall v p, u = v ++ [p] -> starts (snd p) = true)
  | None => (length (filter (fun p => starts (snd p)) ls) < n)%nat
  end.
Proof. exact cycles_spec. Qed.
Print Assumptions C152_one_cycle_per_start.
Example C152_case : stepping c0 /\ plain_line mini m_start [Write cycle_start true_text] /\ plain_line mini m_read [Read (tx "a.b")] /\
  starts [Write cycle_start true_text] = true /\ starts [Read (tx "a.b")] = false /\
  option_map snd (cycles (line_proc teensy mini []) (fun c => c) 1 [m_read; m_start; m_read; m_start] c0) = Some [m_read; m_start] /\
  option_map snd (cycles (line_proc teensy mini []) (fun c => c) 2 [m_read; m_start; m_read] c0) = None.
Proof.
  split; [split; [exists true_text; reflexivity|reflexivity]|].
  assert (PL : forall m q, message m -> says mini m q -> plain q -> (length m <= 512)%nat -> plain_line mini m [q]).
  { intros m q M S P L. exists [([], m)], []. split; [unfold line_of; cbn [flat_map fst snd app]; rewrite !app_nil_r; reflexivity|].
    split; [intros []|]. split; [cbn; lia|]. split; [exact L|]. split; [exact (alone m q M S)|]. constructor; [exact P|constructor]. }
  split; [apply PL; [apply is_message; vm_compute; reflexivity|apply mini_start|discriminate|vm_compute; lia]|].
  split; [apply PL; [apply is_message; vm_compute; reflexivity|apply mini_read|exact I|vm_compute; lia]|].
  repeat split; vm_compute; reflexivity.
Qed.

(** C152.  With automatic cycling on, cycles never wait and take one line each as long as there are lines. *)
Theorem C152_automatic : forall (proc : text -> con -> option con) work,
  (forall c, flag cycle_auto (work c) = flag cycle_auto c) ->
  (forall l c, flag cycle_auto c = true -> exists c', proc l c = Some c' /\ flag cycle_auto c' = true) ->
  forall n lines c, flag cycle_auto c = true ->
  exists c', cycles proc work n lines c = Some (c', skipn n lines) /\ flag cycle_auto c' = true.
Proof. exact auto_spec. Qed.
Print Assumptions C152_automatic.
