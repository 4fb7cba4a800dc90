(* Properties C45-C48 and C52: bit fields and their description tables.
   Vocabulary: S_Bitfield.v.  A bit field has [size] bytes, a value v and a layout l. *)
From Coq Require Import String.
From Coq Require Import ZArith Lia ZifyBool ZifyNat ZifyN.
From Verif Require Import Base G_Enums M_Raw M_Bitfield G_Layouts Spec S_Bitfield L_Base L_Bitfield P_System.
Local Open Scope N_scope.

(* --------------------------------------------------------------------- C45 *)

(* Iterating yields one flag per bit, in order, and then None for ever. *)
Theorem C45_iter_enumerates : forall c size v l, size <= 16 -> size * 8 <= len l -> exists it,
  drains (iter_next c) (iter_new size v l) (flags v 0 (take (size * 8) l)) it /\ none_forever (iter_next c) it.
Proof. exact iter_all. Qed.
Print Assumptions C45_iter_enumerates.

(* the q-th flag: its position, whether that bit of the value is set, and its entry *)
Theorem C45_flags : forall v l q f, nth_error (flags v 0 l) q = Some f <->
  position f = N.of_nat q /\ is_set f = N.testbit v (N.of_nat q) /\ nth_error l q = Some (type_ f).
Proof. intros. rewrite flags_nth, N.add_0_l. reflexivity. Qed.
Print Assumptions C45_flags.

(* a table with too few entries panics after its last entry (the trait's default
   table is empty) *)
Theorem C45_short_layout_panics : forall c size v l, size <= 16 -> len l < size * 8 ->
  runs (iter_next c) (iter_new size v l) (flags v 0 l) Panicked.
Proof. exact iter_short. Qed.
Print Assumptions C45_short_layout_panics.

(* no table of the crate has too few entries, or too many *)
Theorem C45_shipped_layouts : Forall (fun x => fst x * 8 = len (snd x) /\ fst x <= 16) all_layouts.
Proof. exact shipped_widths. Qed.
Print Assumptions C45_shipped_layouts.

Example C45_example : 8 * 8 <= len Characteristics_layout /\ len all_layouts = 8 /\
  nth_error (flags 0x8 0 Characteristics_layout) 3 = Some {| position := 3; is_set := true;
    type_ := Significant "BIOS characteristics not supported" "BIOS Characteristics are not supported" |}.
Proof. split; [vm_compute; discriminate|]. split; vm_compute; reflexivity. Qed.

(* --------------------------------------------------------------------- C46 *)

(* Collecting the positions of the set flags gives the value back. *)
Theorem C46_round_trip : forall c size v l, size <= 16 -> size * 8 <= len l -> v < 2 ^ (size * 8) -> exists fs it,
  drains (iter_next c) (iter_new size v l) fs it /\ from_iter c (size * 8) (set_positions fs) = Val v.
Proof.
  intros c size v l H1 H2 H3. destruct (iter_all c size v l H1 H2) as [it [D _]].
  exists (flags v 0 (take (size * 8) l)), it. split; [exact D|]. apply collect_flags; [exact H3|]. lens. lia.
Qed.
Print Assumptions C46_round_trip.

(* Collecting any positions below the width (in any order, with repetitions) sets
   exactly these bits. *)
Theorem C46_collect : forall c w ps, Forall (fun p => p < w) ps ->
  exists v, from_iter c w ps = Val v /\ v < 2 ^ w /\ forall q, N.testbit v q = true <-> In q ps.
Proof. exact collect_in. Qed.
Print Assumptions C46_collect.

(* A position at or above the width panics in a build with overflow checks ... *)
Theorem C46_collect_panics_exactly : forall c w ps, overflow_checks c = true ->
  (from_iter c w ps = Panic <-> exists p, In p ps /\ w <= p).
Proof. intros c w ps O. apply from_positions_panic, O. Qed.
Print Assumptions C46_collect_panics_exactly.

(* ... and is taken modulo the width in a build without. *)
Theorem C46_collect_wraps : forall c w ps, overflow_checks c = false -> 0 < w ->
  exists v, from_iter c w ps = Val v /\ v < 2 ^ w /\ forall q, N.testbit v q = true <-> exists p, In p ps /\ q = p mod w.
Proof. exact collect_mod. Qed.
Print Assumptions C46_collect_wraps.

Example C46_example : Forall (fun p => p < 16) [3; 15; 0; 3] /\ from_iter ex_strict 16 [3; 15; 0; 3] = Val 0x8009 /\
  from_iter ex_strict 8 [3; 9] = Panic /\ from_iter ex_flat 8 [3; 9] = Val 0x0A /\
  (exists p, In p [3; 9] /\ 8 <= p) /\ 0x1234 < 2 ^ (2 * 8).
Proof.
  split; [repeat constructor|]. split; [vm_compute; reflexivity|]. split; [vm_compute; reflexivity|].
  split; [vm_compute; reflexivity|]. split; [exists 9; cbn; split; [tauto|lia]|reflexivity].
Qed.

(* --------------------------------------------------------------------- C47 *)

(* significants() yields exactly the set bits whose entry is not reserved, ascending. *)
Theorem C47_significants : forall c size v l, size <= 16 -> size * 8 <= len l -> exists fs it,
  drains (significants_next c) (iter_new size v l) fs it /\ none_forever (significants_next c) it /\
  ascending (map position fs) /\
  forall f, In f fs <->
    is_set f = true /\ N.testbit v (position f) = true /\
    entry (take (size * 8) l) (position f) = Some (type_ f) /\ (forall d, type_ f <> FReserved d).
Proof.
  intros c size v l H1 H2. destruct (sig_all c size v l H1 H2) as [it [D N]].
  exists (filter keep (flags v 0 (take (size * 8) l))), it. split; [exact D|]. split; [exact N|].
  split; [apply keep_ascending|]. intros f. rewrite keep_in.
  assert (E : is_reserved (type_ f) = false <-> forall d, type_ f <> FReserved d).
  { unfold is_reserved. destruct (type_ f); split; try reflexivity; try discriminate. intros H. destruct (H note eq_refl). }
  rewrite E. reflexivity.
Qed.
Print Assumptions C47_significants.

(* "significants() leaves out what the standard reserves" is false: bits 0 and 1 of the
   BIOS characteristics are described as "Reserved" but not marked as reserved *)
Theorem C47_leaves_out_reserved_refuted : exists it, In (8, Characteristics_layout) all_layouts /\
  significants_next ex_strict (iter_new 8 0x1 Characteristics_layout) =
  Val (Some {| position := 0; is_set := true; type_ := Significant "Reserved" "Reserved" |}, it).
Proof. eexists. split; [vm_compute; tauto|]. vm_compute. reflexivity. Qed.
Print Assumptions C47_leaves_out_reserved_refuted.

(* Apart from these two, no two significant bits of one shipped table share a name. *)
Fixpoint names (l : Layout) : list string :=
  match l with [] => [] | Significant m _ :: l => m :: names l | _ :: l => names l end.
Lemma names_in l : forall q m d, nth_error l q = Some (Significant m d) -> In m (names l).
Proof.
  induction l as [|x l IH]; intros [|q] m d H; try discriminate H.
  - injection H as ->. left. reflexivity.
  - cbn in H. destruct x; cbn [names]; eauto using in_cons.
Qed.
Lemma names_distinct l : forallb (fun m => (m =? "Reserved")%string || (N.of_nat (count_occ string_dec (names l) m) =? 1)) (names l) = true ->
  forall p q m d e, nth_error l p = Some (Significant m d) -> nth_error l q = Some (Significant m e) -> m = "Reserved"%string \/ p = q.
Proof.
  intros H p q m d e HP HQ. rewrite forallb_forall in H. specialize (H m (names_in l p m d HP)).
  apply orb_true_iff in H. destruct H as [H|H]; [left; apply String.eqb_eq, H|right].
  apply N.eqb_eq in H. revert p q d e HP HQ H. induction l as [|x l IH]; intros p q d e HP HQ H; [destruct p; discriminate HP|].
  destruct p as [|p], q as [|q]; [reflexivity| | |].
  - cbn in HP, HQ. injection HP as ->. cbn [names count_occ] in H. destruct (string_dec m m); [|congruence].
    apply names_in in HQ. apply (count_occ_In string_dec) in HQ. lia.
  - cbn in HP, HQ. injection HQ as ->. cbn [names count_occ] in H. destruct (string_dec m m); [|congruence].
    apply names_in in HP. apply (count_occ_In string_dec) in HP. lia.
  - cbn in HP, HQ. f_equal. apply (IH p q d e HP HQ). destruct x; cbn [names count_occ] in H; try exact H.
    destruct (string_dec _ _); [|exact H]. apply names_in in HP. apply (count_occ_In string_dec) in HP. lia.
Qed.
Theorem C47_shipped_names : forall n l p q m d e, In (n, l) all_layouts ->
  nth_error l p = Some (Significant m d) -> nth_error l q = Some (Significant m e) -> m = "Reserved"%string \/ p = q.
Proof.
  intros n l p q m d e H. apply names_distinct.
  assert (A : forallb (fun x => forallb (fun m => (m =? "Reserved")%string || (N.of_nat (count_occ string_dec (names (snd x)) m) =? 1)) (names (snd x)))
    all_layouts = true) by (vm_compute; reflexivity).
  rewrite forallb_forall in A. apply (A (n, l) H).
Qed.
Print Assumptions C47_shipped_names.
Example C47_example : len (names Characteristics_layout) = 32 /\ exists it,
  significants_next ex_strict (iter_new 8 0x10010 Characteristics_layout) =
  Val (Some {| position := 4; is_set := true; type_ := Significant "ISA is supported" "ISA is supported" |}, it).
Proof. split; [vm_compute; reflexivity|]. eexists. vm_compute. reflexivity. Qed.

(* --------------------------------------------------------------------- C48 *)

(* For tables in which no run of one bit directly follows another run, reserved()
   yields exactly the maximal runs, ascending. *)
Theorem C48_reserved_ranges : forall c size v l,
  size <= 16 -> size * 8 <= len l -> no_single_second (take (size * 8) l) -> exists xs s',
  drains (reserved_next c) (reserved_new (iter_new size v l)) xs s' /\ none_forever (reserved_next c) s' /\
  ascending (map range_start xs) /\
  forall x, In x xs <-> run (take (size * 8) l) (description x) (range_start x) (range_end x).
Proof. exact res_drain_right. Qed.
Print Assumptions C48_reserved_ranges.

(* All tables of the crate are of this kind. *)
Theorem C48_shipped_layouts : Forall (fun x => no_single_second (snd x)) all_layouts.
Proof. exact shipped_no_single. Qed.
Print Assumptions C48_shipped_layouts.

(* For every other table: the runs are found, and the end of each run of one bit that
   directly follows another run is reported as 0. *)
Theorem C48_reserved_exactly : forall c size v l, size <= 16 -> size * 8 <= len l -> exists xs s',
  drains (reserved_next c) (reserved_new (iter_new size v l)) xs s' /\ none_forever (reserved_next c) s' /\
  ascending (map range_start xs) /\ forall x, In x xs <-> reported (take (size * 8) l) x.
Proof. exact res_drain_spec. Qed.
Print Assumptions C48_reserved_exactly.

(* "reserved() yields the maximal runs of every table" is false *)
Definition ex_single : Layout := layout 8 [Short "A"; Res "R" 2; Res "S" 1; Short "B"; Short "C"; Short "D"; Short "E"].
Theorem C48_every_layout_refuted : exists c xs s', len ex_single = 8 /\
  drains (reserved_next c) (reserved_new (iter_new 1 0 ex_single)) xs s' /\
  xs = [{| description := "R"; range_start := 1; range_end := 2 |}; {| description := "S"; range_start := 3; range_end := 0 |}] /\
  run ex_single "S" 3 3.
Proof.
  exists ex_strict. do 2 eexists. split; [reflexivity|]. split.
  { eapply drains_cons; [vm_compute; reflexivity|]. eapply drains_cons; [vm_compute; reflexivity|].
    apply drains_nil. vm_compute. reflexivity. }
  split; [reflexivity|]. split; [lia|]. split; [intros p H; replace p with 3 by lia; reflexivity|].
  split; [intros _|]; vm_compute; discriminate.
Qed.
Print Assumptions C48_every_layout_refuted.

Example C48_example : no_single_second (take (8 * 8) Characteristics_layout) /\
  run Characteristics_layout "Reserved for BIOS vendor" 32 47.
Proof.
  split; [apply no_single_second_check; vm_compute; reflexivity|].
  split; [lia|]. split.
  - assert (A : forallb (fun k => same (nth_error Characteristics_layout k) "Reserved for BIOS vendor") (seq 32 16) = true)
      by (vm_compute; reflexivity).
    intros p H. rewrite forallb_forall in A. apply same_iff. apply A. apply in_seq. lia.
  - split; [intros _|]; vm_compute; discriminate.
Qed.

(* --------------------------------------------------------------------- C52 *)

(* The table a layout! invocation builds: its items in order, and Unknown up to the
   announced length. *)
Theorem C52_layout_macro : forall n items, len (concat (map expand items)) <= n ->
  layout n items = concat (map expand items) ++ repeat FUnknown (N.to_nat (n - len (concat (map expand items)))).
Proof. exact layout_spec. Qed.
Print Assumptions C52_layout_macro.

Example C52_example : len (concat (map expand [Short "A"; Res "R" 3; Long "B" "BB"])) <= 8 /\
  layout 8 [Short "A"; Res "R" 3; Long "B" "BB"] =
  [Significant "A" "A"; FReserved "R"; FReserved "R"; FReserved "R"; Significant "B" "BB"; FUnknown; FUnknown; FUnknown].
Proof. split; [vm_compute; discriminate|vm_compute; reflexivity]. Qed.
