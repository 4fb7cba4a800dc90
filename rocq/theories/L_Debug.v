(* Lemmas for C82: the Debug texts of errors. *)
From Coq Require Import String Ascii.
From Coq Require Import ZArith Lia ZifyBool ZifyNat ZifyN.
From Verif Require Import Base G_Enums M_Raw M_Entry M_Bios M_System M_BaseBoard M_Enclosure
  M_Processor M_Cache M_PortConnector M_SystemSlots M_Strings M_GroupAssociations
  M_SystemEventLog M_PhysicalMemoryArray M_MemoryDevice M_Memory M_PortableBattery
  M_Iter M_Display M_Debug Spec S_Decode S_Lists S_Iter S_Text S_TextValues S_Debug
  S_Entry L_Base L_Strings L_Decode L_Lists L_Entry L_Iter L_Frame L_Text L_Texts2.
Local Open Scope string_scope.
Local Open Scope N_scope.

(* --------------------------------------------------------------- the texts *)

Lemma escape_plain s : plain s = true -> escape s = s.
Proof.
  induction s as [|c s IH]; [reflexivity|]. cbn [plain escape]. intros H.
  apply andb_true_iff in H. destruct H as [H HS]. rewrite IH by exact HS.
  apply andb_true_iff in H. destruct H as [H H4]. apply andb_true_iff in H. destruct H as [H H3].
  apply andb_true_iff in H. destruct H as [H1 H2]. unfold escape_char. cbv zeta.
  replace (N_of_ascii c =? 0) with false by lia. replace (N_of_ascii c =? 9) with false by lia.
  replace (N_of_ascii c =? 10) with false by lia. replace (N_of_ascii c =? 13) with false by lia.
  replace (N_of_ascii c =? 34) with false by lia. replace (N_of_ascii c =? 92) with false by lia.
  replace ((N_of_ascii c <? 32) || (N_of_ascii c =? 127))%bool with false by lia. reflexivity.
Qed.
Lemma num_of n : n < 2 ^ 64 -> numeral 10 (show_dec n) n.
Proof. intros H. apply show_dec_numeral, dec_room, H. Qed.
Ltac numbered := apply num_of; change (2 ^ 64) with 18446744073709551616;
  repeat match goal with H : _ < 2 ^ 32 |- _ => change (2 ^ 32) with 4294967296 in H end; lia.
Ltac same_text := cbv beta delta [int_debug str_debug own_line]; cbn -[show_dec InfoType_dbg];
  repeat (progress (rewrite ?append_assoc; cbn -[show_dec InfoType_dbg])); reflexivity.
Lemma type_rendered i : type_fits i -> type_text InfoType_debug i (render false 0 (InfoType_dbg i)).
Proof.
  intros H. destruct i; try reflexivity. cbn [type_text]. exists (show_dec v). specialize (H v eq_refl).
  split; [numbered|reflexivity].
Qed.
Lemma error_rendered e : error_fits e -> error_text InfoType_debug e (render false 0 (MalformedStructureError_dbg e)).
Proof.
  intros H. destruct e as [o l|o|i h k| |i h spec n]; cbn [error_fits error_text] in *.
  - exists (show_dec o), (show_dec l). split; [numbered|]. split; [numbered|same_text].
  - exists (show_dec o). split; [numbered|same_text].
  - destruct H as [HI [HH HK]]. exists (render false 0 (InfoType_dbg i)), (show_dec h), (show_dec k).
    split; [apply type_rendered, HI|]. split; [numbered|]. split; [numbered|same_text].
  - reflexivity.
  - destruct H as [HI [HH [HS HN]]]. exists (render false 0 (InfoType_dbg i)), (show_dec h), (show_dec n).
    split; [apply type_rendered, HI|]. split; [numbered|]. split; [numbered|].
    cbn [MalformedStructureError_dbg str_debug]. unfold str_debug. rewrite escape_plain by exact HS. same_text.
Qed.
Definition type_rows (i : InfoType) : list string :=
  match i with
  | InfoType_Oem n => ["    Oem("; "    " ++ own_line (show_dec n); "    ),"]
  | _ => [own_line (InfoType_debug i)]
  end.
Lemma type_rows_right i : type_fits i -> type_lines InfoType_debug i (type_rows i).
Proof.
  intros H. destruct i; try reflexivity. cbn [type_lines]. exists (show_dec v). specialize (H v eq_refl).
  split; [numbered|reflexivity].
Qed.
Lemma type_rows_lines i x y l : lines (x :: app (type_rows i) (y :: l)) =
  x ++ line_end ++ "    " ++ render true 1 (InfoType_dbg i) ++ "," ++ line_end ++ lines (y :: l).
Proof.
  assert (H : forall a l, l <> [] -> lines (a :: l) = a ++ line_end ++ lines l) by (intros a [|b k] N; [congruence|reflexivity]).
  rewrite H by (destruct i; discriminate).
  do 2 f_equal. set (L := lines (y :: l)).
  destruct i; cbn [type_rows app]; unfold own_line; cbn [lines]; fold L; cbn [InfoType_dbg render];
    try (cbn [append InfoType_debug]; reflexivity).
  same_text.
Qed.
Lemma error_rows e : error_fits e -> exists l, error_lines InfoType_debug e l /\
  render true 0 (MalformedStructureError_dbg e) = lines l.
Proof.
  intros H. destruct e as [o l|o|i h k| |i h spec n]; cbn [error_fits error_lines] in *.
  - eexists. split; [exists (show_dec o), (show_dec l); split; [numbered|]; split; [numbered|reflexivity]|same_text].
  - eexists. split; [exists (show_dec o); split; [numbered|reflexivity]|same_text].
  - destruct H as [HI [HH HK]]. eexists. split; [exists (type_rows i), (show_dec h), (show_dec k);
    split; [apply type_rows_right, HI|]; split; [numbered|]; split; [numbered|reflexivity]|]. rewrite type_rows_lines. same_text.
  - eexists. split; reflexivity.
  - destruct H as [HI [HH [HS HN]]]. eexists. split; [exists (type_rows i), (show_dec h), (show_dec n);
    split; [apply type_rows_right, HI|]; split; [numbered|]; split; [numbered|reflexivity]|].
    cbn [MalformedStructureError_dbg str_debug]. unfold str_debug. rewrite escape_plain by exact HS. rewrite type_rows_lines. same_text.
Qed.
Lemma entry_error_rendered e : entry_error_byte e -> entry_error_text e (render false 0 (InvalidEntryPointError_dbg e)).
Proof.
  intros H. destruct e as [|n|n|n]; cbn [entry_error_byte entry_error_text] in *; [reflexivity|..];
    (exists (show_dec n); split; [numbered|same_text]).
Qed.
Lemma entry_error_rows e : entry_error_byte e -> exists l, entry_error_lines e l /\
  render true 0 (InvalidEntryPointError_dbg e) = lines l.
Proof.
  intros H. destruct e as [|n|n|n]; cbn [entry_error_byte entry_error_lines] in *;
    [eexists; split; reflexivity|..]; (eexists; split; [exists (show_dec n); split; [numbered|reflexivity]|same_text]).
Qed.

(* ------------------------------------------------------ different texts *)

Definition opens (alt : bool) : string := if alt then newline ++ "    " else "".
Definition parts_at (alt : bool) : string := if alt then "," ++ newline ++ "    " else ", ".
Definition closes (alt : bool) : string := if alt then "," ++ newline ++ ")" else ")".
Definition type_shown (alt : bool) (i : InfoType) : string := render alt (if alt then 1 else 0)%nat (InfoType_dbg i).

Lemma shape_size alt o l : render alt 0 (MalformedStructureError_dbg (BadSize o l)) =
  "BadSize(" ++ opens alt ++ show_dec o ++ parts_at alt ++ show_dec l ++ closes alt.
Proof. destruct alt; same_text. Qed.
Lemma shape_strings alt o : render alt 0 (MalformedStructureError_dbg (UnterminatedStrings o)) =
  "UnterminatedStrings(" ++ opens alt ++ show_dec o ++ closes alt.
Proof. destruct alt; same_text. Qed.
Lemma shape_index alt i h k : render alt 0 (MalformedStructureError_dbg (InvalidStringIndex i h k)) =
  "InvalidStringIndex(" ++ opens alt ++ type_shown alt i ++ parts_at alt ++ show_dec h ++ parts_at alt ++ show_dec k ++ closes alt.
Proof. destruct alt; same_text. Qed.
Lemma shape_length alt i h spec n : render alt 0 (MalformedStructureError_dbg (InvalidFormattedSectionLength i h spec n)) =
  "InvalidFormattedSectionLength(" ++ opens alt ++ type_shown alt i ++ parts_at alt ++ show_dec h ++ parts_at alt ++
  quote ++ escape spec ++ quote ++ parts_at alt ++ show_dec n ++ closes alt.
Proof. destruct alt; same_text. Qed.

Lemma parts_no_digit alt s : no_digit_first (parts_at alt ++ s) = true. Proof. destruct alt; reflexivity. Qed.
Lemma closes_no_digit alt : no_digit_first (closes alt) = true. Proof. destruct alt; reflexivity. Qed.
Lemma dec_split m n c d : m < 2 ^ 64 -> n < 2 ^ 64 -> no_digit_first c = true -> no_digit_first d = true ->
  show_dec m ++ c = show_dec n ++ d -> m = n /\ c = d.
Proof. intros HM HN. apply (split_reads 10); apply show_dec_reads, dec_room; assumption. Qed.

(* words *)
Fixpoint word (s : string) : bool :=
  match s with
  | EmptyString => true
  | String c s => negb (N_of_ascii c =? 40) && negb (N_of_ascii c =? 44) && word s
  end.
Definition ends_word (s : string) : bool :=
  match s with EmptyString => true | String c s => (N_of_ascii c =? 40) || (N_of_ascii c =? 44) end.
Lemma word_split a b c d : word a = true -> word b = true -> ends_word c = true -> ends_word d = true ->
  a ++ c = b ++ d -> a = b /\ c = d.
Proof.
  revert b. induction a as [|x a IH]; intros [|y b] HA HB HC HD E; cbn [append] in E; [auto|..].
  - subst c. cbn [ends_word word] in *. lia.
  - subst d. cbn [ends_word word] in *. lia.
  - injection E as -> E. cbn [word] in HA, HB. apply andb_true_iff in HA, HB.
    destruct (IH b (proj2 HA) (proj2 HB) HC HD E) as [-> ->]. auto.
Qed.
Definition head_word (i : InfoType) : string := match i with InfoType_Oem _ => "Oem" | _ => InfoType_debug i end.
Definition tail_word (alt : bool) (i : InfoType) : string :=
  match i with
  | InfoType_Oem n => if alt then "(" ++ newline ++ "        " ++ show_dec n ++ "," ++ newline ++ "    )" else "(" ++ show_dec n ++ ")"
  | _ => ""
  end.
Lemma type_shown_shape alt i : type_shown alt i = head_word i ++ tail_word alt i.
Proof. destruct alt, i; try reflexivity; unfold type_shown; cbn [InfoType_dbg]; same_text. Qed.
Lemma type_split alt i j c d : type_fits i -> type_fits j ->
  type_shown alt i ++ parts_at alt ++ c = type_shown alt j ++ parts_at alt ++ d -> i = j /\ c = d.
Proof.
  intros HI HJ E. rewrite !type_shown_shape, !append_assoc in E.
  apply word_split in E; [|destruct i; reflexivity|destruct j; reflexivity|destruct alt, i; reflexivity|destruct alt, j; reflexivity].
  destruct E as [EH E].
  destruct i, j; cbn [head_word InfoType_debug] in EH; try discriminate EH;
    try (cbn [tail_word append] in E; split; [reflexivity|]; change ("" ++ parts_at alt ++ c) with (parts_at alt ++ c) in E;
         exact (prefix_cancel _ _ _ E)).
  specialize (HI _ eq_refl). specialize (HJ _ eq_refl). unfold tail_word in E.
  assert (v = v0 /\ parts_at alt ++ c = parts_at alt ++ d) as [-> E2].
  { destruct alt; rewrite !append_assoc in E.
    - do 3 apply prefix_cancel in E. apply dec_split in E; [|room|room|reflexivity..]. destruct E as [-> E].
      do 3 apply prefix_cancel in E. auto.
    - apply prefix_cancel in E. apply dec_split in E; [|room|room|reflexivity..]. destruct E as [-> E].
      apply prefix_cancel in E. auto. }
  apply prefix_cancel in E2. auto.
Qed.
Lemma plain_split a b c d : plain a = true -> plain b = true -> a ++ quote ++ c = b ++ quote ++ d -> a = b /\ c = d.
Proof.
  revert b. induction a as [|x a IH]; intros [|y b] HA HB E; cbn [append quote] in E; cbn [plain] in HA, HB.
  - injection E as E. auto.
  - injection E as <- E. vm_compute in HB. discriminate.
  - injection E as -> E. vm_compute in HA. discriminate.
  - injection E as -> E. apply andb_true_iff in HA, HB. destruct (IH b (proj2 HA) (proj2 HB) E) as [-> ->]. auto.
Qed.

Lemma error_debug_distinct alt : distinct_on error_fits (fun e => render alt 0 (MalformedStructureError_dbg e)).
Proof.
  intros x y HX HY E. destruct x as [a b|a|i h k| |i h s n], y as [a' b'|a'|i' h' k'| |i' h' s' n'];
    try (destruct alt; discriminate E); try reflexivity; cbn [error_fits] in *.
  - destruct HX as [A B], HY as [A' B']. rewrite !shape_size in E. do 2 apply prefix_cancel in E.
    change (2 ^ 32) with 4294967296 in *.
    apply dec_split in E; [|room|room|apply parts_no_digit..]. destruct E as [-> E]. apply prefix_cancel in E.
    apply dec_split in E; [|room|room|apply closes_no_digit..]. destruct E as [-> _]. reflexivity.
  - rewrite !shape_strings in E. do 2 apply prefix_cancel in E. change (2 ^ 32) with 4294967296 in *.
    apply dec_split in E; [|room|room|apply closes_no_digit..]. destruct E as [-> _]. reflexivity.
  - destruct HX as [A [B C]], HY as [A' [B' C']]. rewrite !shape_index in E. do 2 apply prefix_cancel in E.
    apply type_split in E; [|assumption..]. destruct E as [-> E].
    apply dec_split in E; [|room|room|apply parts_no_digit..]. destruct E as [-> E]. apply prefix_cancel in E.
    apply dec_split in E; [|room|room|apply closes_no_digit..]. destruct E as [-> _]. reflexivity.
  - destruct HX as [A [B [S C]]], HY as [A' [B' [S' C']]]. rewrite !shape_length, !escape_plain in E by assumption.
    do 2 apply prefix_cancel in E. apply type_split in E; [|assumption..]. destruct E as [-> E].
    apply dec_split in E; [|room|room|apply parts_no_digit..]. destruct E as [-> E]. do 2 apply prefix_cancel in E.
    apply plain_split in E; [|assumption..]. destruct E as [-> E]. apply prefix_cancel in E.
    apply dec_split in E; [|room|room|apply closes_no_digit..]. destruct E as [-> _]. reflexivity.
Qed.
Lemma entry_error_debug_distinct alt : distinct_on entry_error_byte (fun e => render alt 0 (InvalidEntryPointError_dbg e)).
Proof.
  intros x y HX HY E. destruct x as [|n|n|n], y as [|m|m|m]; try (destruct alt; discriminate E); try reflexivity;
    cbn [entry_error_byte] in *.
  all: assert (S : forall s k, render alt 0 (Tuple s [int_debug k]) = s ++ "(" ++ opens alt ++ show_dec k ++ closes alt)
    by (intros; destruct alt; same_text).
  all: cbn [InvalidEntryPointError_dbg] in E; rewrite !S in E; do 3 apply prefix_cancel in E;
    (apply dec_split in E; [|room|room|apply closes_no_digit..]); destruct E as [-> _]; reflexivity.
Qed.

(* ------------------------------------------------------ reported errors fit *)

Definition specs : list string := [""; "minimum of "; "at least"; "17h+(x*y) = "].
Definition from (r : RawStructure) (e : MalformedStructureError) : Prop :=
  match e with
  | BadSize _ _ | UnterminatedStrings _ => False
  | InvalidSlice => True
  | InvalidStringIndex i h k => i = info r /\ h = handle r /\ k < 256
  | InvalidFormattedSectionLength i h spec n => i = info r /\ h = handle r /\ In spec specs /\ n < 256
  end.
Definition gives {A} (r : RawStructure) (x : out (res A)) : Prop := forall e, x = Val (Err e) -> from r e.

Lemma gives_obind {A B} r (m : out A) (k : A -> out (res B)) : (forall a, m = Val a -> gives r (k a)) -> gives r (obind m k).
Proof. intros H e. destruct m as [a| |]; cbn [obind]; [apply H; reflexivity|discriminate|discriminate]. Qed.
Lemma gives_rbind {A B} r (m : out (res A)) (k : A -> out (res B)) :
  gives r m -> (forall a, m = Val (Ok a) -> gives r (k a)) -> gives r (rbind m k).
Proof.
  intros HM H e. destruct m as [[a|e']| |]; cbn [rbind]; [apply H; reflexivity| |discriminate|discriminate].
  intros [= <-]. apply HM. reflexivity.
Qed.
Lemma gives_ok {A} r (a : A) : gives r (Val (Ok a)). Proof. intros e; discriminate. Qed.
Lemma gives_panic {A} r : @gives A r Panic. Proof. intros e; discriminate. Qed.
Lemma gives_ub {A} r : @gives A r UB. Proof. intros e; discriminate. Qed.
Lemma gives_find0 r k : k < 256 -> gives r (Val (find_string r k)).
Proof. intros HK e [= E]. apply find_string_err in E. destruct E as [-> N]. cbn. auto. Qed.
Lemma gives_rmap {A B} (f : A -> B) r (x : res A) : gives r (Val x) -> gives r (Val (rmap f x)).
Proof. intros H e. destruct x; cbn [rmap]; [discriminate|]. intros [= <-]. apply H. reflexivity. Qed.
Lemma gives_get c w o r : gives r (get c w o r).
Proof.
  intros e E. unfold get in E. destruct (u_sub _ _ _ _) as [st| |]; cbn [obind] in E; try discriminate E.
  destruct (u_add _ _ _ _) as [fin| |]; cbn [obind] in E; try discriminate E.
  destruct (_ =? w) in E; [discriminate E|]. injection E as <-. exact I.
Qed.
Lemma get_byte c o r k : all_bytes (data r) -> 4 <= o -> o < 2 ^ 31 -> get c 1 o r = Val (Ok k) -> k < 256.
Proof.
  intros HB H1 H2 E. change (2 ^ 31) with 2147483648 in H2. rewrite get_field in E; [|lia|lia|change (2 ^ 32) with 4294967296; lia].
  destruct (field r o 1) eqn:F; [|discriminate]. injection E as <-. apply (field_lt _ _ _ _ HB) in F. exact F.
Qed.
Lemma gives_get_string c o r : all_bytes (data r) -> 4 <= o -> o < 2 ^ 31 -> gives r (get_string c o r).
Proof.
  intros HB H1 H2. unfold get_string. apply gives_rbind; [apply gives_get|]. intros k E.
  apply gives_find0. eapply get_byte; eassumption.
Qed.
Lemma gives_map_ok {A} (f : A -> Structure) r x : gives r x -> gives r (map_ok f x).
Proof. intros H e. unfold map_ok, omap. destruct x as [[a|e']| |]; cbn [obind rmap]; try discriminate. intros [= <-]. apply H; reflexivity. Qed.
Lemma gives_length {A} r i spec n : i = info r -> In spec specs -> n < 256 ->
  @gives A r (Val (Err (InvalidFormattedSectionLength i (handle r) spec n))).
Proof. intros HI H HN e [= <-]. cbn. auto. Qed.

Lemma packed_byte c n r a o : all_bytes (data r) -> all_bytes (after r) -> read_packed c n r = Val a -> at_ o 1 a < 256.
Proof.
  intros HD HA E. apply (at_lt o 1). unfold read_packed in E. destruct (_ <=? _) in E.
  - injection E as <-. apply all_bytes_take, HD.
  - destruct (_ && _)%bool in E; [|discriminate]. injection E as <-. apply all_bytes_take, all_bytes_app. auto.
Qed.
Ltac byte_value := first
  [ eapply packed_byte; eassumption
  | apply (at_lt _ 1), all_bytes_take; assumption
  | eapply get_byte; [eassumption| | |eassumption]; [discriminate|reflexivity] ].
Ltac gives_step :=
  cbv zeta;
  first
  [ apply gives_ok | apply gives_panic | apply gives_ub
  | apply gives_get
  | apply gives_find0; byte_value
  | apply gives_rmap, gives_find0; byte_value
  | apply gives_get_string; [assumption|discriminate|reflexivity]
  | apply gives_length; [first [reflexivity|symmetry; assumption]|cbn; tauto|reflexivity]
  | match goal with |- gives _ (rbind _ _) => apply gives_rbind; [|intros ? ?]
                  | |- gives _ (obind _ _) => apply gives_obind; intros ? ? end
  | match goal with |- gives _ (if ?b then _ else _) => destruct b eqn:?
                  | |- gives _ (match ?x with _ => _ end) => destruct x eqn:? end ].

Lemma gives_options c r : all_bytes (data r) -> info r = InfoType_SystemConfigurationOptions -> gives r (SystemConfigurationOptions_try_from c r).
Proof.
  intros HB EI e E. apply options_errors in E. destruct E as [[F ->]|[n [l [F [S [N ->]]]]]]; [exact I|].
  cbn. split; [symmetry; exact EI|]. split; [reflexivity|]. exact (field_lt _ _ _ _ HB F).
Qed.
Lemma gives_group c r : all_bytes (data r) -> info r = InfoType_GroupAssociations -> length_ r = 4 + len (data r) -> length_ r < 256 ->
  gives r (GroupAssociations_try_from c r).
Proof.
  intros HA EI HL HB. destruct (N.lt_ge_cases (length_ r) 5) as [H|H].
  - rewrite group_short by assumption. destruct (overflow_checks c); [apply gives_panic|].
    apply gives_length; [symmetry; exact EI|left; reflexivity|exact HB].
  - intros e E. apply group_err in E; [|lia..]. destruct E as [k [F [N ->]]]. cbn.
    split; [reflexivity|]. split; [reflexivity|]. exact (field_lt _ _ _ _ HA F).
Qed.
Lemma gives_event_log c r : info r = InfoType_SystemEventLog -> gives r (SystemEventLog_try_from c r).
Proof.
  intros EI. unfold SystemEventLog_try_from. cbv zeta. rewrite !get_ok_field by get_side. rewrite !obind_val.
  destruct (version_eq _ _ && _)%bool eqn:E1.
  { apply gives_length; [symmetry; exact EI|left; reflexivity|reflexivity]. }
  destruct (version_ge _ _ && _)%bool eqn:E2.
  { destruct (field r 0x15 1) as [x|] eqn:FX; [destruct (field r 0x16 1) as [y|] eqn:FY|]; cbn [oand_then option_map] in *;
      (apply gives_length; [symmetry; exact EI|cbn; tauto|]); try reflexivity. apply N.mod_lt. discriminate. }
  repeat gives_step.
Qed.
(* what is left of the bytes is bytes *)
Definition rest_bytes {A} (x : option (A * list N)) : Prop := forall a l, x = Some (a, l) -> all_bytes l.
Lemma read_rest w d : all_bytes d -> rest_bytes (read_bytes w d).
Proof. intros H a l E. unfold read_bytes in E. destruct (_ <? _) in E; [discriminate|]. injection E as _ <-. apply all_bytes_drop, H. Qed.
Lemma then_rest {A} w (x : option (A * list N)) : rest_bytes x -> rest_bytes (oand_then x (fun '(_, d) => read_bytes w d)).
Proof. intros H. destruct x as [[a l]|]; cbn [oand_then]; [|discriminate]. apply read_rest. eapply H; reflexivity. Qed.
Lemma contained_rest c d aft x : all_bytes d -> ContainedElements_new c d aft = Val x -> rest_bytes x.
Proof.
  intros HD E. unfold ContainedElements_new in E. pose proof (read_rest 1 d HD) as R1.
  destruct (read_bytes 1 d) as [[n d1]|]; [|injection E as <-; discriminate]. specialize (R1 _ _ eq_refl).
  pose proof (read_rest 1 d1 R1) as R2. destruct (read_bytes 1 d1) as [[k d2]|]; [|injection E as <-; discriminate].
  specialize (R2 _ _ eq_refl). destruct (_ || _)%bool in E.
  - injection E as <-. intros a q Q. injection Q as _ <-. exact R2.
  - destruct (u_mul _ _ _ _) as [m| |]; cbn [obind] in E; try discriminate E.
    destruct (slice_get d2 0 m); injection E as <-; [|discriminate]. intros a q Q. injection Q as _ <-. apply all_bytes_drop, R2.
Qed.
Lemma then_byte {A} (x : option (A * list N)) n l : rest_bytes x -> oand_then x (fun '(_, d) => read_bytes 1 d) = Some (n, l) -> n < 256.
Proof.
  intros H E. destruct x as [[a d]|]; cbn [oand_then] in E; [|discriminate]. unfold read_bytes in E. destruct (_ <? _) in E; [discriminate|].
  injection E as <- _. specialize (H _ _ eq_refl).
  exact (at_lt 0 1 _ H).
Qed.
Lemma contained_or_none_rest {A} c (x : option (A * list N)) aft y : rest_bytes x ->
  match x with Some (_, d) => ContainedElements_new c d aft | None => Val None end = Val y -> rest_bytes y.
Proof.
  intros H E. destruct x as [[a d]|]; [|injection E as <-; discriminate]. eapply contained_rest; [|exact E]. eapply H; reflexivity.
Qed.

Lemma gives_dispatch c r : all_bytes (data r) -> all_bytes (after r) -> length_ r = 4 + len (data r) -> length_ r < 256 -> gives r (dispatch c r).
Proof.
  intros HA HF HL HB. unfold dispatch. destruct (info r) eqn:EI; try apply gives_ok; apply gives_map_ok.
  all: try (apply gives_options; assumption). all: try (apply gives_group; assumption). all: try (apply gives_event_log; exact EI).
  all: cbv beta delta [Bios_try_from System_try_from BaseBoard_try_from Enclosure_try_from Processor_try_from
    Cache_try_from PortConnector_try_from SystemSlots_try_from OemStrings_try_from
    BiosLanguage_try_from PhysicalMemoryArray_try_from MemoryDevice_try_from MemoryError32_try_from
    MemoryArrayMappedAddress_try_from MemoryDeviceMappedAddress_try_from BuiltInPointingDevice_try_from
    PortableBattery_try_from some_if get_optional_uint get_uint].
  all: repeat gives_step.
  apply gives_rmap, gives_find0. eapply then_byte; [|eassumption]. eapply contained_or_none_rest; [|eassumption].
  do 6 apply then_rest. apply read_rest, all_bytes_drop, HA.
Qed.

Lemma spec_plain s : In s specs -> plain s = true /\ ends_in_digit s = false.
Proof. intros H. cbn in H. decompose [or] H; subst; try contradiction; split; reflexivity. Qed.
Lemma reported_fits c s e s' : sane s -> next c s = Val (Some (Err e), s') -> error_fits e /\ structure_error_small e.
Proof.
  intros HS H. pose proof HS as [HB [HI HL]]. apply next_iff in H; [|exact HS]. inversion H; subst.
  - assert (l < 256).
    { match goal with E : buffer s = _ |- _ => rewrite E in HB end. apply all_bytes_app in HB. destruct HB as [_ HB].
      inversion HB as [|? ? _ HB2]. inversion HB2 as [|? ? HB3 _]. exact HB3. }
    change (2 ^ 32) with 4294967296 in *. cbn [error_fits structure_error_small]. change (2 ^ 32) with 4294967296.
    change (2 ^ 64) with 18446744073709551616. lia.
  - change (2 ^ 32) with 4294967296 in *. cbn [error_fits structure_error_small]. change (2 ^ 32) with 4294967296.
    change (2 ^ 64) with 18446744073709551616. lia.
  - match goal with F : framed _ _ _ r |- _ => destruct F as [pre [post [k [h0 [h1 [E [_ [EL [_ [EI [EH [_ EA]]]]]]]]]]]] end.
    rewrite E in HB. apply all_bytes_app in HB. destruct HB as [_ HB]. apply all_bytes_app in HB. destruct HB as [HB1 HB].
    apply all_bytes_app in HB. destruct HB as [HD HA]. rewrite <- EA in HA.
    inversion HB1 as [|? ? HK HB2]; subst. inversion HB2 as [|? ? HL2 HB3]; subst. inversion HB3 as [|? ? H0 HB4]; subst.
    inversion HB4 as [|? ? H1 _]; subst.
    assert (H0' : h0 < 256) by exact H0. assert (H1' : h1 < 256) by exact H1. assert (HK' : k < 256) by exact HK.
    assert (G : from r e) by (eapply gives_dispatch; eassumption).
    assert (T : type_fits (info r)).
    { rewrite EI. intros t. unfold InfoType_from. repeat (destruct (_ =? _); [discriminate|]). intros [= <-]. exact HK'. }
    destruct e as [|o|i h n| |i h spec n]; cbn [from error_fits structure_error_small] in *; try contradiction; try tauto.
    + destruct G as [-> [-> G]]. rewrite EH. change (2 ^ 64) with 18446744073709551616. repeat split; try assumption; lia.
    + destruct G as [-> [-> [G1 G]]]. rewrite EH. apply spec_plain in G1. destruct G1.
      change (2 ^ 64) with 18446744073709551616. repeat split; try assumption; lia.
Qed.
Lemma complaints_in_order items : complaints items =
  map complaint (errors_among items).
Proof. induction items as [|[x|e] l IH]; unfold errors_among in *; cbn [complaints flat_map app map]; [reflexivity|exact IH|rewrite IH; reflexivity]. Qed.
Lemma complaint_shape e : complaint e =
  "DMI tables contain malformed structure: Err(" ++ render false 0 (MalformedStructureError_dbg e) ++ ")".
Proof. reflexivity. Qed.

Lemma complaint_told e e' : error_fits e -> error_fits e' -> complaint e = complaint e' -> e = e'.
Proof.
  intros H H' E. rewrite !complaint_shape in E. apply prefix_cancel in E. apply suffix_cancel in E.
  exact (error_debug_distinct false e e' H H' E).
Qed.
Lemma complaints_told items items' :
  (forall e, In (Err e) (app items items') -> error_fits e) -> complaints items = complaints items' ->
  errors_among items = errors_among items'.
Proof.
  intros H E. rewrite !complaints_in_order in E.
  assert (F : forall l, (forall e, In (Err e) l -> error_fits e) -> Forall error_fits (@errors_among Structure l)).
  { intros l. induction l as [|[x|e] l IH]; intros HF; unfold errors_among in *; cbn [flat_map app]; [constructor|..].
    - apply IH. intros; apply HF; right; assumption.
    - constructor; [apply HF; left; reflexivity|]. apply IH. intros; apply HF; right; assumption. }
  pose proof (F items (fun e I => H e (in_or_app _ _ _ (or_introl I)))) as F1.
  pose proof (F items' (fun e I => H e (in_or_app _ _ _ (or_intror I)))) as F2. clear F H.
  revert E F1 F2. generalize (errors_among items).
  generalize (errors_among items').
  intros l' l. revert l'. induction l as [|e l IH]; intros [|e' l'] E F1 F2; try discriminate E; [reflexivity|].
  cbn [map] in E. pose proof (f_equal (hd "") E) as E1. apply (f_equal (@tl string)) in E. cbn [hd tl] in E1, E. inversion F1; subst. inversion F2; subst.
  f_equal; [apply complaint_told; assumption|]. apply IH; assumption.
Qed.
Lemma search_error_byte b e : search b = Val (Err e) -> entry_error_byte e.
Proof.
  intros H. destruct (anchor_dec b) as [[o [k F]]|N].
  - apply (search_verdict b o k _ F) in H. inversion H; subst; cbn [entry_error_byte].
    + destruct k; cbn [layout_size] in *; lia.
    + destruct k; cbn [layout_size] in *; lia.
    + lia.
    + apply N.mod_lt; discriminate.
    + apply N.mod_lt; discriminate.
  - apply search_no_anchor in N. rewrite N in H. injection H as <-. exact I.
Qed.
