(* C107: exactly which structures are decoded.  Specification: S_Accepted.v. *)
From Coq Require Import ZArith Lia ZifyBool ZifyNat ZifyN.
From Coq Require Import String.
From Verif Require Import Base G_Enums M_Raw M_Entry M_Iter Spec S_Iter S_Decode S_System S_Safety S_Table S_Accepted.
From Verif Require Import L_Base L_Decode L_System L_Accepted P_System P_Iter.
Local Open Scope N_scope.

(* A structure is decoded (neither an error, nor a panic, nor a read past its end) if and only if
   it has the length, the strings and the few further values listed for its type and version. *)
Theorem C107_accepted : forall c r, flat_memory c = false ->
  all_bytes (data r) -> length_ r = 4 + len (data r) -> length_ r < 256 ->
  ((exists x, dispatch c r = Val (Ok x)) <-> acceptable c r).
Proof. exact dispatch_accepted. Qed.
Print Assumptions C107_accepted.

(* The iterator gives a structure next if and only if there is one at its place, and it is such. *)
Theorem C107_next : forall c s, flat_memory c = false -> sane s ->
  ((exists x s', next c s = Val (Some (Ok x), s')) <-> exists r, here s r /\ acceptable c r).
Proof. exact next_accepted. Qed.
Print Assumptions C107_next.

(* It comes to its end without any error if and only if at every place that it gets to the table
   ends or has such a structure. *)
Theorem C107_without_errors : forall c s, flat_memory c = false -> sane s ->
  ((exists xs s', drains (next c) s (map Ok xs) s') <->
   forall s1, reached c s s1 -> smbios_len_ s1 < idx s1 + 4 \/ exists r, here s1 r /\ acceptable c r).
Proof. exact all_accepted. Qed.
Print Assumptions C107_without_errors.

(* A table of such structures is decoded from its first to its last. *)
Theorem C107_tables : forall c e ss rest, flat_memory c = false -> Forall encodable_ok ss -> ep_smbios_len e = len (table ss) ->
  all_bytes (table ss ++ rest) -> len (table ss ++ rest) + 260 <= 2 ^ 32 ->
  Forall (acceptable c) (shown (ep_to_version e) ss rest) ->
  exists xs s', Forall2 (fun r x => dispatch c r = Val (Ok x)) (shown (ep_to_version e) ss rest) xs /\
    drains (next c) (structures e (table ss ++ rest)) (map Ok xs) s'.
Proof. exact table_accepted. Qed.
Print Assumptions C107_tables.

(* And only such a table is: for every length that may be announced for it, going through it
   shows no error and comes to its end if and only if all structures up to its end are such. *)
Theorem C107_tables_exactly : forall c e ss rest, flat_memory c = false -> Forall encodable_ok ss ->
  announces (ep_to_version e) (ep_smbios_len e) ss ->
  all_bytes (table ss ++ rest) -> len (table ss ++ rest) + 260 <= 2 ^ 32 ->
  ((exists xs s', drains (next c) (structures e (table ss ++ rest)) (map Ok xs) s') <->
   Forall (acceptable c) (shown (ep_to_version e) ss rest)).
Proof. exact table_exactly. Qed.
Print Assumptions C107_tables_exactly.

(* Where memory is flat, the decoders that copy a fixed number of bytes take what follows a
   structure for its own, and so accept more. *)
Theorem C107_accepted_flat : forall c r, flat_memory c = true ->
  all_bytes (data r) -> length_ r = 4 + len (data r) -> length_ r < 256 ->
  ((exists x, dispatch c r = Val (Ok x)) <-> acceptable_flat c r).
Proof. exact dispatch_accepted_flat. Qed.
Print Assumptions C107_accepted_flat.
Theorem C107_next_flat : forall c s, flat_memory c = true -> sane s ->
  ((exists x s', next c s = Val (Some (Ok x), s')) <-> exists r, here s r /\ acceptable_flat c r).
Proof. exact next_accepted_flat. Qed.
Print Assumptions C107_next_flat.

(* The standard allows shorter structures: a baseboard of eight bytes in any version, a memory
   device of 15h bytes in 2.1.  Neither is decoded within its bounds, whatever its strings are. *)
Theorem C107_standard_lengths_refuted : forall c r x, flat_memory c = false ->
  all_bytes (data r) -> length_ r = 4 + len (data r) ->
  info r = InfoType_BaseBoard /\ length_ r = 0x08 \/
  info r = InfoType_MemoryDevice /\ version_is (version r) 2 1 /\ length_ r = 0x15 ->
  dispatch c r <> Val (Ok x).
Proof.
  intros c r x HF HB HL H E. assert (A : acceptable c r).
  { apply dispatch_accepted; [assumption..|lia|]. exists x. exact E. }
  destruct A as [A _]. unfold length_ok in A.
  destruct H as [[I L]|[I [_ L]]]; rewrite I in A; cbn [accepted_length] in A; lia.
Qed.
Print Assumptions C107_standard_lengths_refuted.

(* Strings "A", "BC", "D": a system structure of 2.0 that refers to them, one that refers to a
   fourth; an enclosure with sixteen records of sixteen bytes, in two builds. *)
Definition ex_lenient : cfg := {| overflow_checks := false; flat_memory := false; pointer_width := W64 |}.
Definition ex_named (k : N) : RawStructure := ex_struct 2 0 InfoType_System [1; 2; k; 0] [].
Definition ex_records : RawStructure :=
  ex_struct 2 7 InfoType_Enclosure [1; 3; 2; 3; 0; 3; 3; 3; 3; 0; 0; 0; 0; 1; 1; 16; 16; 2] [].
Lemma decoded_acceptable c r : flat_memory c = false -> all_bytes (data r) -> length_ r = 4 + len (data r) -> length_ r < 256 ->
  match dispatch c r with Val (Ok _) => acceptable c r | _ => ~ acceptable c r end.
Proof.
  intros A B C D. pose proof (C107_accepted c r A B C D) as H. destruct (dispatch c r) as [[x|e]| |].
  - apply H. eauto.
  - intros K. apply H in K. destruct K as [x K]. discriminate K.
  - intros K. apply H in K. destruct K as [x K]. discriminate K.
  - intros K. apply H in K. destruct K as [x K]. discriminate K.
Qed.
Example C107_accepted_example :
  acceptable ex_strict (ex_named 3) /\ ~ acceptable ex_strict (ex_named 4) /\
  acceptable ex_lenient ex_records /\ ~ acceptable ex_strict ex_records.
Proof.
  split; [|split; [|split]];
  match goal with
  | |- acceptable ?c ?r => exact (decoded_acceptable c r eq_refl ltac:(apply all_bytes_dec; vm_compute; reflexivity) eq_refl eq_refl)
  | |- ~ acceptable ?c ?r => exact (decoded_acceptable c r eq_refl ltac:(apply all_bytes_dec; vm_compute; reflexivity) eq_refl eq_refl)
  end.
Qed.

(* a system structure, a structure of an OEM type, the end: all three are decoded *)
Definition ex_good : list encodable := [
  {| e_type := 1; e_handle := 1; e_body := [1; 2; 2; 0; 0; 0; 0; 0; 0; 0; 0; 0; 0; 0; 0; 0; 0; 0; 0; 0; 6; 1; 0];
     e_strings := [[65]; [66; 67]] |};
  {| e_type := 200; e_handle := 7; e_body := [0; 0; 9]; e_strings := [] |};
  {| e_type := 127; e_handle := 0xFEFF; e_body := []; e_strings := [] |} ].
Example C107_tables_example :
  Forall encodable_ok ex_good /\ ep_smbios_len (ex_v3 (len (table ex_good))) = len (table ex_good) /\
  all_bytes (table ex_good) /\ len (table ex_good) + 260 <= 2 ^ 32 /\
  Forall (acceptable ex_strict) (shown (ep_to_version (ex_v3 (len (table ex_good)))) ex_good []) /\
  len (shown (ep_to_version (ex_v3 (len (table ex_good)))) ex_good []) = 3 /\
  announces (ep_to_version (ex_v3 (len (table ex_good)))) (len (table ex_good)) ex_good /\
  announces (ep_to_version (ex_v3 1000)) 1000 ex_good.
Proof.
  split; [repeat constructor; cbn; try lia; try discriminate; intros H; repeat destruct H as [H|H]; try discriminate; exact H|].
  split; [reflexivity|]. split; [apply all_bytes_dec; vm_compute; reflexivity|]. split; [vm_compute; discriminate|].
  split; [|split; [reflexivity|split; [left; lia|right; split; [vm_compute; discriminate|]; split; [|vm_compute; discriminate]]]].
  2: { eexists. split; [right; right; left; reflexivity|reflexivity]. }
  assert (A : forall r l, acceptable ex_strict r -> Forall (acceptable ex_strict) l -> Forall (acceptable ex_strict) (r :: l)) by (constructor; assumption).
  cbn [shown ex_good e_type]. change (ep_to_version (ex_v3 (len (table ex_good)))) with {| major := 3; minor := 2 |}. cbn [major].
  apply A; [|apply A; [|apply A; [|constructor]]];
  match goal with |- acceptable ?c ?r => exact (decoded_acceptable c r eq_refl ltac:(apply all_bytes_dec; vm_compute; reflexivity) eq_refl eq_refl) end.
Qed.

(* a baseboard of eight bytes, with and without enough bytes behind it *)
Definition ex_board (rest : list N) : RawStructure := ex_struct 2 7 InfoType_BaseBoard [1; 2; 3; 0] rest.
Example C107_accepted_flat_example :
  acceptable_flat ex_flat (ex_board [65; 0; 66; 67; 0; 0]) /\ ~ acceptable_flat ex_flat (ex_board [65; 0; 66; 0; 0]) /\
  ~ acceptable ex_strict (ex_board [65; 0; 66; 67; 0; 0]).
Proof.
  assert (B : forall l, all_bytes (data (ex_board l))) by (intros l; apply all_bytes_dec; vm_compute; reflexivity).
  split; [|split].
  - apply C107_accepted_flat; [reflexivity|apply B|reflexivity|reflexivity|]. eexists. vm_compute. reflexivity.
  - intros A. apply C107_accepted_flat in A; [|reflexivity|apply B|reflexivity|reflexivity]. destruct A as [x A]. vm_compute in A. discriminate A.
  - exact (decoded_acceptable ex_strict _ eq_refl (B _) eq_refl eq_refl).
Qed.
