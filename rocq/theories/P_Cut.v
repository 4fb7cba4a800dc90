(* Property C89: a buffer that lacks its last bytes.
   Vocabulary: Spec.v (runs), S_Iter.v (here, extent, seen, framing_error), S_Local.v (reaches),
   S_Cut.v (cut_to). *)
From Coq Require Import ZArith Lia ZifyBool ZifyNat ZifyN.
From Verif Require Import Base G_Enums M_Raw M_Entry M_Iter T_Data Spec S_Iter S_Table S_Cut L_Base L_Iter L_Cut P_Iter P_System S_Local.
Local Open Scope N_scope.

(* Structures that end before the cut come out as before. *)
Theorem C89_before : forall c s m l1 s1, flat_memory c = false -> sane s -> m <= len (buffer s) ->
  reaches (next c) s l1 s1 -> (forall e, In (Err e) l1 -> ~ framing_error e) -> idx s1 <= m ->
  exists l1' t, reaches (next c) (cut_to m s) l1' t /\ map seen l1' = map seen l1 /\ idx t = idx s1.
Proof. exact uncut. Qed.
Print Assumptions C89_before.

(* What happens at the structure with the cut depends on where it is: in the strings it is an
   error, and the iteration ends; behind the header it is a panic; and if not even the header
   is left the call reads past the buffer. *)
Theorem C89_at_the_cut : forall c s m l1 s1 r, flat_memory c = false -> sane s -> m <= len (buffer s) ->
  reaches (next c) s l1 s1 -> here s1 r -> idx s1 <= m < idx s1 + extent r ->
  exists l1', map seen l1' = map seen l1 /\
    (m < idx s1 + 4 -> runs (next c) (cut_to m s) l1' Undefined) /\
    (idx s1 + 4 <= m < idx s1 + length_ r -> runs (next c) (cut_to m s) l1' Panicked) /\
    (idx s1 + length_ r <= m ->
       exists t, runs (next c) (cut_to m s) (l1' ++ [Err (UnterminatedStrings (idx s1))]) (Exhausted t)).
Proof. exact cut_short. Qed.
Print Assumptions C89_at_the_cut.

(* "A buffer that ends between two structures is read like a shorter table" is false: if it is
   announced with more, the call after the last structure reads past the buffer. *)
Theorem C89_boundary_refuted : exists s l1 s1 l1',
  sane s /\ reaches (next ex_strict) s l1 s1 /\ len l1 = 2 /\ smbios_len_ s = len (buffer s) /\
  map seen l1' = map seen l1 /\ runs (next ex_strict) (cut_to (idx s1) s) l1' Undefined.
Proof.
  exists (start {| major := 2; minor := 7 |} 26 (table ex_list)).
  eexists [_; _]. eexists. eexists [_; _].
  split; [split; [apply all_bytes_dec; vm_compute; reflexivity|split; vm_compute; discriminate]|].
  split; [do 2 (eapply reaches_on; [vm_compute; reflexivity|]); apply reaches_here|].
  split; [reflexivity|]. split; [vm_compute; reflexivity|]. split.
  2: do 2 (eapply runs_some; [vm_compute; reflexivity|]); apply runs_ub; vm_compute; reflexivity.
  vm_compute. reflexivity.
Qed.
Print Assumptions C89_boundary_refuted.

(* The table of P_Iter: its second structure has its header at 11, its strings from 18 to 20. *)
Example C89_example : exists l1 s1 r, let s := start {| major := 2; minor := 7 |} 26 (table ex_list) in
  sane s /\ reaches (next ex_strict) s l1 s1 /\ here s1 r /\ len l1 = 1 /\ idx s1 = 11 /\ length_ r = 7 /\ extent r = 9 /\
  (forall e, In (Err e) l1 -> ~ framing_error e) /\
  (exists l t, runs (next ex_strict) (cut_to 19 s) (l ++ [Err (UnterminatedStrings 11)]) (Exhausted t)) /\
  (exists l, runs (next ex_strict) (cut_to 17 s) l Panicked) /\
  (exists l, runs (next ex_strict) (cut_to 13 s) l Undefined).
Proof.
  set (e1 := nth 0 ex_list (Build_encodable 0 0 [] [])). set (e2 := nth 1 ex_list (Build_encodable 0 0 [] [])).
  eexists [_]. exists {| smbios_version := {| major := 2; minor := 7 |}; smbios_len_ := 26; idx := 11; buffer := table ex_list |}.
  exists (raw_of {| major := 2; minor := 7 |} e2 (table (skipn 2 ex_list))). cbv zeta.
  split; [split; [apply all_bytes_dec; vm_compute; reflexivity|split; vm_compute; discriminate]|].
  split; [eapply reaches_on; [vm_compute; reflexivity|apply reaches_here]|].
  split.
  { split; [|split; [vm_compute; discriminate|vm_compute; reflexivity]]. cbn [smbios_version buffer idx].
    replace (table ex_list) with (encode e1 ++ encode e2 ++ table (skipn 2 ex_list)) by (vm_compute; reflexivity).
    replace 11 with (len (encode e1)) by (vm_compute; reflexivity).
    apply framed_encode. exact (proj1 (Forall_forall _ _) ex_list_ok e2 (or_intror (or_introl eq_refl))). }
  split; [reflexivity|]. split; [reflexivity|]. split; [reflexivity|]. split; [reflexivity|].
  split; [intros e [E|[]]; discriminate E|].
  split; [|split].
  - eexists [_]. eexists. cbn [app]. do 2 (eapply runs_some; [vm_compute; reflexivity|]). apply runs_none. vm_compute. reflexivity.
  - eexists [_]. eapply runs_some; [vm_compute; reflexivity|]. apply runs_panic. vm_compute. reflexivity.
  - eexists [_]. eapply runs_some; [vm_compute; reflexivity|]. apply runs_ub. vm_compute. reflexivity.
Qed.
