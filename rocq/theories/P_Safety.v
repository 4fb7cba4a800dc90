(* Properties C42-C44: which structures and tables crash the decoders.
   Vocabulary: S_Safety.v.  [flat_memory c = false] is the strict memory model, in
   which a read past a slice is undefined behaviour (UB); with [flat_memory c = true]
   it answers the bytes that follow in the buffer, if there are any. *)
From Coq Require Import String.
From Coq Require Import ZArith Lia ZifyBool ZifyNat ZifyN.
From Verif Require Import Base G_Enums M_Raw M_Entry M_Bios M_BaseBoard M_Strings M_Iter T_Data
  Spec S_Iter S_Decode S_System S_Hardware S_Lists S_Safety L_Base L_Iter L_Decode L_Frame L_Array L_Safety P_System P_Iter.
Local Open Scope N_scope.

(* --------------------------------------------------------------------- C42 *)

(* A decoder reads past the formatted area exactly when the layout chosen by the
   version is longer than what is there. *)
Theorem C42_overread_exactly : forall c r, all_bytes (data r) -> length_ r = 4 + len (data r) -> length_ r < 256 ->
  (dispatch c r = UB <-> decoder_overreads c r).
Proof. exact dispatch_ub. Qed.
Print Assumptions C42_overread_exactly.

(* In flat memory a short structure decodes as if the bytes of its strings and of the
   next structures belonged to it. *)
Theorem C42_flat_reads_on : forall c r, flat_memory c = true ->
  In (info r) [InfoType_Bios; InfoType_System; InfoType_Processor; InfoType_Cache; InfoType_PortConnector] ->
  dispatch c r = dispatch c (stretched r).
Proof. exact dispatch_stretched. Qed.
Print Assumptions C42_flat_reads_on.

Theorem C42_flat_language_reads_on : forall c r s, flat_memory c = true -> BiosLanguage_try_from c r = Val (Ok s) ->
  exists s', BiosLanguage_try_from c (stretched r) = Val (Ok s') /\ language_handle s' = language_handle s /\
    language_flags s' = language_flags s /\ language_current_language s' = language_current_language s.
Proof. exact language_stretched. Qed.
Print Assumptions C42_flat_language_reads_on.

(* "the reported fields come from the structure" is false: this BIOS structure ends
   after its ROM size byte, and its characteristics are the characters "A..BC..D" *)
Theorem C42_own_bytes_refuted : exists buf r s, all_bytes buf /\ framed {| major := 2; minor := 3 |} buf 0 r /\
  len (data r) = 6 /\ Bios_try_from ex_flat r = Val (Ok s) /\ bios_characteristics s = little (take 8 (strings r)).
Proof.
  exists [0; 10; 7; 0; 1; 2; 0; 0xE0; 3; 9; 65; 0; 66; 67; 0; 68; 0; 0].
  exists {| version := {| major := 2; minor := 3 |}; info := InfoType_Bios; length_ := 10; handle := 7;
            data := [1; 2; 0; 0xE0; 3; 9]; strings := [65; 0; 66; 67; 0; 68; 0; 0];
            after := [65; 0; 66; 67; 0; 68; 0; 0] |}. eexists.
  split; [apply all_bytes_dec; vm_compute; reflexivity|].
  split; [|split; [reflexivity|split; vm_compute; reflexivity]].
  exists [], [], 0, 7, 0. repeat (split; [vm_compute; reflexivity|]). split; [|repeat split; vm_compute; reflexivity].
  apply (encode_strings_area [[65]; [66; 67]; [68]]).
  repeat constructor; try discriminate; intros H; cbn in H; repeat (destruct H as [H|H]; [discriminate|]); exact H.
Qed.
Print Assumptions C42_own_bytes_refuted.

(* "the table in tests/data/dmi_v3_short.bin is decoded in bounds" is false: its
   entry point announces 3.0, and its 96th structure is a processor of 42 bytes *)
Fixpoint run_for (c : cfg) (n : nat) (s : Structures) : option (N * ending Structures) :=
  match n with
  | O => None
  | S n => match next c s with
           | Panic => Some (0, Panicked)
           | UB => Some (0, Undefined)
           | Val (None, s') => Some (0, Exhausted s')
           | Val (Some _, s') => match run_for c n s' with Some (k, e) => Some (1 + k, e) | None => None end
           end
  end.
Lemma run_for_runs c n : forall s k e, run_for c n s = Some (k, e) -> exists l, len l = k /\ runs (next c) s l e.
Proof.
  induction n as [|n IH]; intros s k e H; [discriminate|]. cbn [run_for] in H.
  destruct (next c s) as [[[a|] s']| |] eqn:E; try (injection H as <- <-; exists []; split; [reflexivity|constructor; exact E]).
  destruct (run_for c n s') as [[k' e']|] eqn:R; [|discriminate]. injection H as <- <-.
  destruct (IH s' k' e' R) as [l [L RR]]. exists (a :: l). split; [rewrite len_cons, L; reflexivity|econstructor; eassumption].
Qed.
Theorem C42_fixture_in_bounds_refuted : exists e l l' s',
  search entry_v3_short_bin = Val (Ok e) /\ version_is (ep_to_version e) 3 0 /\
  runs (next ex_strict) (structures e dmi_v3_short_bin) l Undefined /\ len l = 95 /\
  runs (next ex_flat) (structures e dmi_v3_short_bin) l' (Exhausted s') /\ len l' = 102 /\
  take 2 (drop 3549 dmi_v3_short_bin) = [4; 42] /\ Processor_area (ep_to_version e) = 48 - 4.
Proof.
  destruct (search entry_v3_short_bin) as [[e|]| |] eqn:E; try (exfalso; vm_compute in E; discriminate E).
  assert (R1 : run_for ex_strict 200 (structures e dmi_v3_short_bin) = Some (95, Undefined))
    by (vm_compute in E; injection E as <-; vm_compute; reflexivity).
  assert (R2 : exists s', run_for ex_flat 200 (structures e dmi_v3_short_bin) = Some (102, Exhausted s'))
    by (vm_compute in E; injection E as <-; eexists; vm_compute; reflexivity).
  destruct R2 as [s' R2].
  destruct (run_for_runs _ _ _ _ _ R1) as [l [L1 R1']]. destruct (run_for_runs _ _ _ _ _ R2) as [l' [L2 R2']].
  exists e, l, l', s'. split; [reflexivity|]. vm_compute in E. injection E as <-.
  split; [split; reflexivity|]. split; [exact R1'|]. split; [exact L1|]. split; [exact R2'|]. split; [exact L2|].
  split; vm_compute; reflexivity.
Qed.
Print Assumptions C42_fixture_in_bounds_refuted.

(* a processor of a 3.0 table that ends with the 2.6 fields; nothing follows it in memory *)
Definition ex_short : RawStructure := ex_struct 3 0 InfoType_Processor (repeat 0 38) [].
Example C42_example : all_bytes (data ex_short) /\ length_ ex_short = 4 + len (data ex_short) /\ length_ ex_short < 256 /\
  decoder_overreads ex_strict ex_short /\ decoder_overreads ex_flat ex_short.
Proof.
  split; [apply all_bytes_dec; vm_compute; reflexivity|]. split; [reflexivity|]. split; [reflexivity|].
  split; exists 44; split; vm_compute; reflexivity.
Qed.
Example C42_example_language : exists s,
  BiosLanguage_try_from ex_flat (ex_struct 2 0 InfoType_BiosLanguage [1; 1] (repeat 2 20)) = Val (Ok s).
Proof. eexists. vm_compute. reflexivity. Qed.

(* --------------------------------------------------------------------- C43 *)

Theorem C43_always_returns : forall c r, all_bytes (data r) -> In (info r) always_returns ->
  exists o, dispatch c r = Val o.
Proof. exact always_returns_ok. Qed.
Print Assumptions C43_always_returns.

(* so do the structures that have no decoder *)
Theorem C43_other_returns : forall c r, ~ In (type_number (info r)) decoded_types -> dispatch c r = Val (Ok (SOther r)).
Proof. exact other_returns. Qed.
Print Assumptions C43_other_returns.

(* Every decoder that can panic, and when: *)
Theorem C43_panics_exactly : forall c r, all_bytes (data r) -> length_ r = 4 + len (data r) -> length_ r < 256 ->
  (dispatch c r = Panic <-> decoder_panics c r).
Proof. exact dispatch_panic. Qed.
Print Assumptions C43_panics_exactly.

Example C43_example : In (info (ex_struct 3 7 InfoType_MemoryDevice [1; 2] [])) always_returns /\
  ~ In (type_number (info (ex_struct 3 7 (InfoType_Oem 200) [1; 2] []))) decoded_types /\
  decoder_panics ex_strict (ex_struct 2 0 InfoType_Cache [] []) /\
  decoder_panics ex_strict (ex_struct 2 7 InfoType_PhysicalMemoryArray [3; 3] []).
Proof.
  split; [cbn; tauto|]. split; [cbn; lia|]. split; [cbn; unfold before_version; cbn; lia|].
  cbn. apply array_panic with (c := ex_strict). vm_compute. reflexivity.
Qed.

(* --------------------------------------------------------------------- C44 *)

(* One structure that is long enough is decoded without panic and in bounds. *)
Theorem C44_structure_safe : forall c r, all_bytes (data r) -> length_ r = 4 + len (data r) -> length_ r < 256 ->
  well_sized r -> exists o, dispatch c r = Val o.
Proof. exact well_sized_safe. Qed.
Print Assumptions C44_structure_safe.

(* A table of any number of such structures is iterated to its end, in every build
   and memory model; each structure gives one item. *)
Theorem C44_table_safe : forall c e ss rest,
  Forall encodable_ok ss -> ep_smbios_len e = len (table ss) ->
  all_bytes (table ss ++ rest) -> len (table ss ++ rest) + 260 <= 2 ^ 32 ->
  Forall well_sized (shown (ep_to_version e) ss rest) ->
  exists items s', Forall2 (fun r x => dispatch c r = Val x) (shown (ep_to_version e) ss rest) items /\
    drains (next c) (structures e (table ss ++ rest)) items s'.
Proof. exact table_safe. Qed.
Print Assumptions C44_table_safe.

(* For any buffer: exactly when an iteration ends with a panic, or out of bounds. *)
Theorem C44_run_panics_exactly : forall c s l e, sane s -> runs (next c) s l e ->
  (e = Panicked <-> exists s1, reached c s s1 /\ (framing_panics s1 \/ exists r, here s1 r /\ decoder_panics c r)).
Proof. exact run_panics. Qed.
Print Assumptions C44_run_panics_exactly.

Theorem C44_run_overreads_exactly : forall c s l e, sane s -> runs (next c) s l e ->
  (e = Undefined <-> exists s1, reached c s s1 /\ (framing_overreads s1 \/ exists r, here s1 r /\ decoder_overreads c r)).
Proof. exact run_overreads. Qed.
Print Assumptions C44_run_overreads_exactly.

(* so an iteration in which every structure is long enough, and none is cut, ends *)
Theorem C44_run_safe : forall c s, sane s ->
  (forall s1, reached c s s1 -> ~ framing_panics s1 /\ ~ framing_overreads s1 /\ forall r, here s1 r -> well_sized r) ->
  exists l s', drains (next c) s l s'.
Proof. exact run_safe. Qed.
Print Assumptions C44_run_safe.

Definition ex_table : list encodable := [
  {| e_type := 1; e_handle := 1; e_body := [1; 2; 3; 0] ++ repeat 7 16 ++ [6; 0; 2]; e_strings := [[65]; [66; 67]; [68]] |};
  {| e_type := 12; e_handle := 2; e_body := [1]; e_strings := [[65]] |};
  {| e_type := 14; e_handle := 3; e_body := [1; 4; 0; 0]; e_strings := [[71]] |};
  {| e_type := 7; e_handle := 4; e_body := [1] ++ repeat 0 14; e_strings := [[76; 49]] |};
  {| e_type := 127; e_handle := 5; e_body := []; e_strings := [] |}].
Example C44_example : Forall encodable_ok ex_table /\ all_bytes (table ex_table) /\
  ep_smbios_len (ex_v2 (len (table ex_table))) = len (table ex_table) /\
  Forall well_sized (shown (ep_to_version (ex_v2 (len (table ex_table)))) ex_table []).
Proof.
  split.
  { repeat constructor; cbn; try discriminate; try (intros H; repeat (destruct H as [H|H]; [discriminate H|]); exact H). }
  split; [apply all_bytes_dec; vm_compute; reflexivity|]. split; [reflexivity|].
  repeat (apply Forall_cons || apply Forall_nil); cbn; try exact I; unfold from_version; cbn; try split; (lia || (vm_compute; discriminate)).
Qed.

Definition ex_one : Structures := structures (ex_v2 6) [200; 4; 0; 0; 0; 0].
Example C44_example_run : sane ex_one /\
  forall s1, reached ex_strict ex_one s1 ->
  ~ framing_panics s1 /\ ~ framing_overreads s1 /\ forall r, here s1 r -> well_sized r.
Proof.
  split; [apply sane_structures; [apply all_bytes_dec; vm_compute; reflexivity|vm_compute; discriminate]|].
  assert (K : forall s1, reached ex_strict ex_one s1 -> s1 = ex_one \/ s1 = moved_to 6 ex_one).
  { intros s1 H. induction H as [|s1 x s2 _ IH H]; [left; reflexivity|]. destruct IH as [-> | ->].
    - right. vm_compute in H. injection H as _ <-. reflexivity.
    - vm_compute in H. discriminate H. }
  intros s1 H. destruct (K s1 H) as [-> | ->]; unfold framing_panics, framing_overreads, here; cbn.
  - split; [|split].
    + intros [_ [A|[l [A [_ [_ [B|[B _]]]]]]]]; [vm_compute in A; discriminate A|vm_compute in A; injection A as <-; vm_compute in B; discriminate B..].
    + vm_compute. intros [_ [_ A]]. discriminate A.
    + intros r [[pre [post [k [h0 [h1 [E [L [_ [_ [I _]]]]]]]]]] _].
      destruct pre; [|rewrite len_cons in L; remember (len pre) as m; clear -L; destruct m; discriminate L]. cbn [app] in E. injection E as <- _ _ _ _.
      unfold well_sized. rewrite I. exact Logic.I.
  - split; [|split]; [intros [A _]|intros [A _]|intros r [_ [A _]]]; vm_compute in A; destruct (A eq_refl).
Qed.
