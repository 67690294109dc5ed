(** A small library for concrete cases: flat messages without blanks, strings and whole numbers only, parsed in place
    the way ArduinoJson does (a string is unescaped where it stands and ended with a 0). Not a model of anything in
    /repo: the theorems hold for every library, this one only shows that there are libraries and lines they speak of. *)
From Coq Require Import String Ascii.
From Verif Require Import Base ConsoleModel ConsoleSpec ConsoleProofs.
Local Open Scope list_scope.
Open Scope Z_scope.

Definition tx (s : string) : text := map (fun c => Z.of_N (N_of_ascii c)) (list_ascii_of_string s).

(** contents, characters used up to and with the closing quote, what follows *)
Fixpoint scan_str (fuel : nat) (l : text) : option (text * nat * text) :=
  match fuel with
  | O => None
  | S k =>
      match l with
      | [] => None
      | c :: t =>
          if c =? 34 then Some ([], 1%nat, t)
          else if c =? 0 then None
          else if c =? 92 then
            match t with
            | e :: t' => match scan_str k t' with Some (s, n, r) => Some (e :: s, S (S n), r) | None => None end
            | [] => None
            end
          else match scan_str k t with Some (s, n, r) => Some (c :: s, S n, r) | None => None end
      end
  end.
Fixpoint scan_num (l : text) (acc : Z) (n : nat) : Z * nat * text :=
  match l with
  | c :: t => if (48 <=? c) && (c <=? 57) then scan_num t (10 * acc + (c - 48)) (S n) else (acc, n, l)
  | [] => (acc, n, [])
  end.
Definition set_member (d : jdoc) (key : text) (v : jval) : jdoc :=
  if text_eqb key (tx "mode") then mk_doc (j_ok d) v (j_field d) (j_val d) (j_length d)
  else if text_eqb key (tx "field") then mk_doc (j_ok d) (j_mode d) v (j_val d) (j_length d)
  else if text_eqb key (tx "val") then mk_doc (j_ok d) (j_mode d) (j_field d) v (j_length d)
  else if text_eqb key (tx "length") then mk_doc (j_ok d) (j_mode d) (j_field d) (j_val d) v else d.
Definition no_doc : jdoc := mk_doc false JNull JNull JNull JNull.
Fixpoint mini_loop (fuel pos : nat) (l : text) (key : option text) (d : jdoc) (out : text) : jdoc * text :=
  match fuel with
  | O => (d, out ++ l)
  | S k =>
      match l with
      | [] => (d, out)
      | c :: t =>
          if c =? 34 then
            match scan_str 600 t with
            | None => (d, out ++ l)
            | Some (s, n, r) =>
                let out' := out ++ [c] ++ s ++ repeat 0 (n - length s) in
                match key with
                | None => mini_loop k (pos + 1 + n) r (Some s) d out'
                | Some key => mini_loop k (pos + 1 + n) r None (set_member d key (JStr (pos + 1) 0)) out'
                end
            end
          else if (48 <=? c) && (c <=? 57) then
            let '(z, n, r) := scan_num l 0 0 in
            match key with
            | Some key => mini_loop k (pos + n) r None (set_member d key (JNum z)) (out ++ firstn n l)
            | None => (d, out ++ l)
            end
          else if (c =? 58) || (c =? 44) then mini_loop k (S pos) t key d (out ++ [c])
          else if c =? 125 then (mk_doc true (j_mode d) (j_field d) (j_val d) (j_length d), out ++ l)
          else (d, out ++ l)
      end
  end.
Definition mini : jlib := fun l => match l with c :: t => mini_loop 600 1 t None no_doc [c] | [] => (no_doc, []) end.

(** a Teensy (pointers and [long] of 32 bits) whose stack held zeros, or letters *)
Definition teensy : platform := mk_plat 4 32 (fun _ => []).
Definition teensy_used : platform := mk_plat 4 32 (fun n => repeat 55 n).

Definition m_read := tx "{""mode"":114,""field"":""a.b""}".
Definition m_write := tx "{""mode"":119,""field"":""a.b"",""val"":""5""}".
Definition m_start := tx "{""mode"":119,""field"":""cycle.start"",""val"":""true""}".
Definition m_up3 := tx "{""mode"":117,""val"":""\\x41\\x5\\xff"",""length"":3}".
Definition m_up2 := tx "{""mode"":117,""val"":""\\x41\\x42"",""length"":2}".
Definition m_up1 := tx "{""mode"":117,""val"":""\\x41"",""length"":1}".
Definition m_cut := tx "{""mode"":119,""field"":""a.b"",""val"":""5""".
Definition m_inner := tx "{""mode"":119,""field"":""a.b"",""val"":""{5""}".

Definition any_read (t : text) : option text := Some t.
Definition c0 : con :=
  mk_con [(tx "a.b", mk_cf (tx "7") any_read); (cycle_start, mk_cf true_text bool_read); (cycle_auto, mk_cf false_text bool_read)]
    (repeat 9 350) 0 [].

(** what can be seen of the outcome *)
Definition seen (r : ran) : option (list (text * text) * text * Z * list reply) :=
  match r with
  | Returned c => Some (map (fun p => (fst p, cf_value (snd p))) (c_reg c), firstn 6 (c_mt c), c_len c, c_out c)
  | _ => None
  end.
Definition value_of (n : text) (r : ran) : option text :=
  match r with Returned c => option_map cf_value (find_cf (c_reg c) n) | _ => None end.

Lemma mini_read : says mini m_read (Read (tx "a.b")).
Proof.
  exists (fst (mini m_read)), (snd (mini m_read)). split; [vm_compute; reflexivity|]. split; [vm_compute; reflexivity|]. split.
  - split; [vm_compute; reflexivity|]. eexists _, _, _. split; [vm_compute; reflexivity|]. split; [vm_compute; lia|].
    split; [vm_compute; reflexivity|]. vm_compute. lia.
  - intros a. cbv. reflexivity.
Qed.
Lemma mini_write : says mini m_write (Write (tx "a.b") (tx "5")).
Proof.
  exists (fst (mini m_write)), (snd (mini m_write)). split; [vm_compute; reflexivity|]. split; [vm_compute; reflexivity|]. split.
  - split; [vm_compute; reflexivity|].
    split; (eexists _, _, _; split; [vm_compute; reflexivity|]; split; [vm_compute; lia|]; split; [vm_compute; reflexivity|]; vm_compute; lia).
  - intros a. cbv. reflexivity.
Qed.
Lemma mini_start : says mini m_start (Write cycle_start true_text).
Proof.
  exists (fst (mini m_start)), (snd (mini m_start)). split; [vm_compute; reflexivity|]. split; [vm_compute; reflexivity|]. split.
  - split; [vm_compute; reflexivity|].
    split; (eexists _, _, _; split; [vm_compute; reflexivity|]; split; [vm_compute; lia|]; split; [vm_compute; reflexivity|]; vm_compute; lia).
  - intros a. cbv. reflexivity.
Qed.
Lemma mini_up3 : says mini m_up3 (Uplink [65; 5; 255]).
Proof.
  exists (fst (mini m_up3)), (snd (mini m_up3)). split; [vm_compute; reflexivity|]. split; [vm_compute; reflexivity|]. split.
  - split; [vm_compute; reflexivity|]. split; [vm_compute; reflexivity|]. split; [|vm_compute; reflexivity].
    exists 19%nat, 0, (skipn 31 (snd (mini m_up3))). split; [vm_compute; reflexivity|]. split; [vm_compute; lia|].
    split; [vm_compute; reflexivity|]. vm_compute. lia.
  - intros a. cbv. reflexivity.
Qed.
Lemma mini_up2 : says mini m_up2 (Uplink [65; 66]).
Proof.
  exists (fst (mini m_up2)), (snd (mini m_up2)). split; [vm_compute; reflexivity|]. split; [vm_compute; reflexivity|]. split.
  - split; [vm_compute; reflexivity|]. split; [vm_compute; reflexivity|]. split; [|vm_compute; reflexivity].
    exists 19%nat, 0, (skipn 28 (snd (mini m_up2))). split; [vm_compute; reflexivity|]. split; [vm_compute; lia|].
    split; [vm_compute; reflexivity|]. vm_compute. lia.
  - intros a. cbv. reflexivity.
Qed.
Lemma mini_up1 : says mini m_up1 (Uplink [65]).
Proof.
  exists (fst (mini m_up1)), (snd (mini m_up1)). split; [vm_compute; reflexivity|]. split; [vm_compute; reflexivity|]. split.
  - split; [vm_compute; reflexivity|]. split; [vm_compute; reflexivity|]. split; [|vm_compute; reflexivity].
    exists 19%nat, 0, (skipn 24 (snd (mini m_up1))). split; [vm_compute; reflexivity|]. split; [vm_compute; lia|].
    split; [vm_compute; reflexivity|]. vm_compute. lia.
  - intros a. cbv. reflexivity.
Qed.
Lemma is_message s : forallb (fun c => negb (c =? brace)) s = true -> message (brace :: s).
Proof.
  intros H. exists s. split; [reflexivity|]. intros X. rewrite forallb_forall in H. specialize (H _ X).
  rewrite Z.eqb_refl in H. discriminate.
Qed.
Lemma alone m q : message m -> says mini m q -> Forall2 (part_says mini) [([], m)] [q].
Proof. intros M S. constructor; [|constructor]. split; [intros []|]. split; assumption. Qed.

(** two reads and an uplink of one byte, on one line *)
Definition stuck_line := m_read ++ m_read ++ m_up1.
Definition stuck_parsed := parse_all mini (msg_starts (load stuck_line)) [] (load stuck_line).
Definition stuck_doc := match nth_error (fst stuck_parsed) 2 with Some (_, d) => d | None => no_doc end.
Lemma stuck_again c : length (c_mt c) = 350%nat ->
  exists c', do_message teensy (snd stuck_parsed) 2 stuck_doc c = Some (c', 1%nat) /\ length (c_mt c') = 350%nat.
Proof.
  intros L. assert (P : as_cstr (snd stuck_parsed) (j_val stuck_doc) = Some (Some (tx "\x41"))) by (vm_compute; reflexivity).
  assert (M : j_mode stuck_doc = JNum 117) by (vm_compute; reflexivity).
  assert (F : j_field stuck_doc = JNull) by (vm_compute; reflexivity).
  assert (N : Z.to_nat (as_size (j_length stuck_doc)) = 1%nat) by (vm_compute; reflexivity).
  assert (U : uplink_data teensy (tx "\x41") 1 = Some [65]) by (vm_compute; reflexivity).
  unfold do_message. rewrite M, F. cbn [as_cstr is_null]. change (as_uchar (JNum 117)) with 117. cbn [Z.eqb Pos.eqb negb andb is_uchar Z.leb Z.ltb Z.compare Pos.compare Pos.compare_cont].
  unfold do_uplink. rewrite P, N, U. unfold deliver, clear. rewrite L. cbn [pl_ptr teensy Nat.ltb Nat.leb].
  assert (L2 : length (repeat 0 4 ++ skipn 4 (c_mt c)) = 350%nat) by (rewrite app_length, repeat_length, skipn_length, L; reflexivity).
  rewrite L2. cbn [Nat.ltb Nat.leb]. eexists. split; [reflexivity|]. cbn [say c_mt]. rewrite app_length, skipn_length, L2. reflexivity.
Qed.
Lemma stuck_forever fuel : process_line fuel teensy mini [] stuck_line c0 = Running.
Proof.
  assert (G : forall k c, length (c_mt c) = 350%nat -> messages k teensy (snd stuck_parsed) (fst stuck_parsed) 2 c = Running).
  { induction k as [|k IH]; intros c L; [reflexivity|]. cbn [messages].
    assert (N : nth_error (fst stuck_parsed) 2 = Some (true, stuck_doc)) by (vm_compute; reflexivity).
    rewrite N. cbn [negb]. destruct (stuck_again c L) as (c' & -> & L'). apply IH. exact L'. }
  unfold process_line. fold stuck_parsed. destruct stuck_parsed as [ms buf] eqn:E. cbn [fst snd] in G.
  destruct fuel as [|[|k]]; [reflexivity| |].
  - cbn [messages]. destruct (nth_error ms 0) as [[ok d]|] eqn:N.
    2:{ exfalso. pose proof (f_equal fst E) as E1. cbn [fst] in E1. rewrite <- E1 in N. vm_compute in N. discriminate. }
    destruct (negb ok); [reflexivity|]. destruct (do_message teensy buf 0 d c0) as [[c1 i1]|] eqn:D; [reflexivity|].
    exfalso. pose proof (f_equal fst E) as E1. pose proof (f_equal snd E) as E2. cbn [fst snd] in E1, E2. rewrite <- E1 in N. rewrite <- E2 in D.
    vm_compute in N. injection N as <- <-. vm_compute in D. discriminate.
  - assert (R : exists c2, messages (S (S k)) teensy buf ms 0 c0 = messages k teensy buf ms 2 c2 /\ length (c_mt c2) = 350%nat).
    { pose proof (f_equal fst E) as E1. pose proof (f_equal snd E) as E2. cbn [fst snd] in E1, E2. rewrite <- E1, <- E2.
      destruct (parsed_line mini [([], m_read); ([], m_read); ([], m_up1)] [Read (tx "a.b"); Read (tx "a.b"); Uplink [65]] [] []) as (docs & b & P & A).
      - repeat constructor; cbn [fst snd]; try (intros []); try (apply is_message; vm_compute; reflexivity);
          try apply mini_read; apply mini_up1.
      - intros [].
      - cbn. lia.
      - vm_compute. lia.
      - change (line_of [([], m_read); ([], m_read); ([], m_up1)] []) with stuck_line in P. fold stuck_parsed in P. rewrite P. cbn [fst snd].
        inversion A as [|d1 ? ? ? A1 A']; subst. inversion A' as [|d2 ? ? ? A2 A'']; subst. inversion A'' as [|d3 ? ? ? A3 A4]; subst. inversion A4; subst.
        exists (answers [Read (tx "a.b"); Read (tx "a.b")] c0). split; [|vm_compute; reflexivity].
        destruct (messages_rw teensy b (map (pair true) [d1; d2; d3]) [d1; d2] [Read (tx "a.b"); Read (tx "a.b")] [(true, d3)] 0 c0 k) as [X _].
        + constructor; [exact A1|constructor; [exact A2|constructor]].
        + reflexivity.
        + reflexivity.
        + exact X. }
    destruct R as (c2 & -> & L2). apply G. exact L2.
Qed.
