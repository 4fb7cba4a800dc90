(* Property C83: comparing, hashing and default-constructing the types of bit fields. *)
From Coq Require Import String.
From Coq Require Import ZArith Lia ZifyBool ZifyNat ZifyN.
From Verif Require Import Base M_Raw M_Hash M_Eq M_Bitfield M_BitfieldEq G_Layouts Spec S_Hash S_Bitfield L_Base L_Eq L_Bitfield L_BitfieldEq P_System.
Local Open Scope N_scope.

(* Flags, their types and reserved ranges are equal exactly when they are the same value, and
   make the same calls to a hasher exactly then. *)
Theorem C83_flags :
  (forall a b, (Flag_eq a b = true <-> a = b) /\ (Flag_hash a = Flag_hash b <-> a = b)) /\
  (forall a b, (FlagType_eq a b = true <-> a = b) /\ (FlagType_hash a = FlagType_hash b <-> a = b)) /\
  (forall a b, (ReservedRange_eq a b = true <-> a = b) /\ (ReservedRange_hash a = ReservedRange_hash b <-> a = b)).
Proof.
  split; [exact (codec_alone _ _ Flag_codec)|]. split; [exact (codec_alone _ _ FlagType_codec)|exact (codec_alone _ _ ReservedRange_codec)].
Qed.
Print Assumptions C83_flags.

(* So are iterators over values of the same integer type (w, of the same size). *)
Theorem C83_iterators : forall w,
  (forall a b, it_size a = it_size b -> (Iter_eq w a b = true <-> a = b) /\ (Iter_hash w a = Iter_hash w b <-> a = b)) /\
  (forall a b, it_size (rv_iter a) = it_size (rv_iter b) ->
    (Reserved_eq w a b = true <-> a = b) /\ (Reserved_hash w a = Reserved_hash w b <-> a = b)).
Proof. intros w. split; [exact (Iter_by_value w)|exact (Reserved_by_value w)]. Qed.
Print Assumptions C83_iterators.

(* What iter() returns compares equal exactly when it yields the same flags: the value and
   the whole table can be read off the flags. *)
Theorem C83_fresh : forall c size v1 v2 l1 l2 w, size <= 16 -> len l1 = size * 8 -> len l2 = size * 8 ->
  v1 < 2 ^ (size * 8) -> v2 < 2 ^ (size * 8) ->
  (Iter_eq w (iter_new size v1 l1) (iter_new size v2 l2) = true <->
   yield_the_same (iter_next c) (iter_new size v1 l1) (iter_new size v2 l2)).
Proof. exact fresh_equal. Qed.
Print Assumptions C83_fresh.

(* This is false of significants() and reserved(): values that differ in bits that are not
   significant give the same flags and ranges, but compare unequal. *)
Theorem C83_significants_refuted : exists c size v1 v2 l w, size * 8 = len l /\
  Iter_eq w (iter_new size v1 l) (iter_new size v2 l) = false /\
  yield_the_same (significants_next c) (iter_new size v1 l) (iter_new size v2 l) /\
  Reserved_eq w (reserved_new (iter_new size v1 l)) (reserved_new (iter_new size v2 l)) = false /\
  yield_the_same (reserved_next c) (reserved_new (iter_new size v1 l)) (reserved_new (iter_new size v2 l)).
Proof.
  pose (l := [Significant "A" "A"; FReserved "R"; FReserved "R"; FReserved "R"; FReserved "R"; FReserved "R"; FReserved "R"; FReserved "R"]).
  exists ex_strict, 1, 1, 3, l, U8. split; [reflexivity|]. split; [reflexivity|]. split; [|split; [reflexivity|]].
  - exists [{| position := 0; is_set := true; type_ := Significant "A" "A" |}]. do 2 eexists.
    split; (eapply drains_cons; [vm_compute; reflexivity|]; eapply drains_nil; vm_compute; reflexivity).
  - exists [{| description := "R"; range_start := 1; range_end := 7 |}]. do 2 eexists.
    split; (eapply drains_cons; [vm_compute; reflexivity|]; eapply drains_nil; vm_compute; reflexivity).
Qed.
Print Assumptions C83_significants_refuted.

(* A default iterator compares equal exactly to the one for the value 0 at position 0 with an
   empty table, and so do what significants() and reserved() make of it. *)
Theorem C83_defaults : forall w size it,
  (Iter_eq w it (Iter_default size) = true <-> it_value it = 0 /\ it_index it = 0 /\ it_layout it = []) /\
  (Iter_eq w it (Significants_default size) = true <-> it_value it = 0 /\ it_index it = 0 /\ it_layout it = []) /\
  (Reserved_eq w (reserved_new it) (Reserved_default size) = true <-> it_value it = 0 /\ it_index it = 0 /\ it_layout it = []).
Proof.
  intros w size it. pose proof (proj1 (codec_alone _ _ (Iter_codec w) it (Iter_default size))) as H.
  pose proof (proj1 (codec_alone _ _ (Reserved_codec w) (reserved_new it) (Reserved_default size))) as R.
  split; [exact H|]. split; [exact H|]. unfold Reserved_eq. rewrite R. cbv beta. cbn [rv_iter rv_desc rv_start reserved_new Reserved_default].
  split; [intros [Q _]; exact Q|intros Q; split; [exact Q|split; reflexivity]].
Qed.
Print Assumptions C83_defaults.

(* "A default iterator is an empty one" is false: for every integer type the first call of next
   panics, on all three iterators, in every build (there is no table to look into). *)
Theorem C83_default_refuted : forall c size, 0 < size ->
  iter_next c (Iter_default size) = Panic /\ significants_next c (Significants_default size) = Panic /\
  reserved_next c (Reserved_default size) = Panic.
Proof. exact default_panics. Qed.
Print Assumptions C83_default_refuted.

Example C83_example :
  Flag_eq {| position := 3; is_set := true; type_ := Significant "A" "B" |} {| position := 3; is_set := true; type_ := Significant "A" "B" |} = true /\
  Flag_eq {| position := 3; is_set := true; type_ := Significant "A" "B" |} {| position := 3; is_set := true; type_ := Significant "AB" "" |} = false /\
  FlagType_hash (Significant "A" "B") <> FlagType_hash (Significant "AB" "") /\
  Iter_eq U64 (iter_new 8 5 Characteristics_layout) (iter_new 8 4 Characteristics_layout) = false /\
  8 * 8 = len Characteristics_layout.
Proof. repeat split; try reflexivity. discriminate. Qed.
