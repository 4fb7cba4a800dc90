(* Property C80: bit field iterators built by hand, and the Debug text of a flag.
   The fields `value`, `index` and `layout` of `bitfield::Iter` are public: a program can build
   one at any index.  Vocabulary: Spec.v, S_Bitfield.v, S_Text.v. *)
From Coq Require Import String.
From Coq Require Import ZArith Lia ZifyBool ZifyNat ZifyN.
From Verif Require Import Base M_Bitfield G_Layouts M_Debug Spec S_Bitfield S_Text L_Base L_Bitfield L_Handmade.
Local Open Scope N_scope.

(* --------------------------------------------------------------------- C80 *)

(* At an index up to the end, the iterator yields the flags from that bit on, with their own
   positions, and then None for ever. *)
Theorem C80_any_index : forall c size v i l, size <= 16 -> size * 8 <= len l -> i <= size * 8 -> exists it,
  drains (iter_next c) {| it_size := size; it_value := v; it_index := i; it_layout := l |}
    (flags v i (take (size * 8 - i) (drop i l))) it /\ none_forever (iter_next c) it.
Proof. intros c size v i l. exact (iter_from c size v l i). Qed.
Print Assumptions C80_any_index.

(* Resuming: what is left at index i is what iter() yields, less its first i flags. *)
Theorem C80_resume : forall c size v i l, size <= 16 -> size * 8 <= len l -> i <= size * 8 -> exists all it it',
  drains (iter_next c) (iter_new size v l) all it /\
  drains (iter_next c) {| it_size := size; it_value := v; it_index := i; it_layout := l |} (drop i all) it'.
Proof. exact iter_resume. Qed.
Print Assumptions C80_resume.

(* Past the end it never yields None: every loop over it ends in a panic, after at most as many
   flags as the layout has entries from there on. *)
Theorem C80_past_the_end_refuted : forall c size v i l, size * 8 < i -> exists fs,
  runs (iter_next c) {| it_size := size; it_value := v; it_index := i; it_layout := l |} fs Panicked /\ len fs <= len l - i.
Proof. intros c size v i l H. exact (iter_beyond c size v l _ i H (le_n _)). Qed.
Print Assumptions C80_past_the_end_refuted.

(* The Debug text of a flag names its position and whether it is set. *)
Theorem C80_debug : forall f, position f < 2 ^ 64 -> exists n, numeral 10 n (position f) /\
  Flag_debug false f = ("Flag { position: Position(" ++ n ++ "), is_set: " ++ (if is_set f then "true" else "false") ++ " }")%string /\
  Flag_debug true f = ("Flag {" ++ newline ++ "    position: Position(" ++ newline ++ "        " ++ n ++ "," ++ newline ++
    "    )," ++ newline ++ "    is_set: " ++ (if is_set f then "true" else "false") ++ "," ++ newline ++ "}")%string.
Proof. exact flag_debug_texts. Qed.
Print Assumptions C80_debug.

(* Two flags with the same Debug text agree on both... *)
Theorem C80_debug_tells : forall alt f g, position f < 2 ^ 64 -> position g < 2 ^ 64 -> Flag_debug alt f = Flag_debug alt g ->
  position f = position g /\ is_set f = is_set g.
Proof. exact flag_debug_inj. Qed.
Print Assumptions C80_debug_tells.

(* ... but not on the type: Debug does not tell a reserved bit from a meaningful one. *)
Theorem C80_debug_type_refuted : exists f g, (forall alt, Flag_debug alt f = Flag_debug alt g) /\
  (exists a b, type_ f = Significant a b) /\ (exists r, type_ g = FReserved r).
Proof.
  exists {| position := 3; is_set := true; type_ := Significant "a" "b" |}, {| position := 3; is_set := true; type_ := FReserved "r" |}.
  split; [reflexivity|]. cbn. eauto.
Qed.
Print Assumptions C80_debug_type_refuted.

Definition ex_c : cfg := {| overflow_checks := false; flat_memory := false; pointer_width := W64 |}.
Definition ex_l : Layout := [Significant "a" "a"; Significant "b" "b"; Significant "c" "c"; Significant "d" "d";
  FReserved "r"; FReserved "r"; FReserved "r"; FReserved "r"].
Example C80_example :
  (* the upper half of a byte, from index 6 *)
  (exists it, drains (iter_next ex_c) {| it_size := 1; it_value := 0x80; it_index := 6; it_layout := ex_l |}
     [ {| position := 6; is_set := false; type_ := FReserved "r" |}; {| position := 7; is_set := true; type_ := FReserved "r" |} ] it) /\
  (* one too far, in a layout that is longer than the field: a flag, then a panic *)
  runs (iter_next ex_c) {| it_size := 1; it_value := 0x80; it_index := 9; it_layout := (ex_l ++ [FReserved "s"; FReserved "s"])%list |}
    [ {| position := 9; is_set := false; type_ := FReserved "s" |} ] Panicked /\
  Flag_debug false {| position := 12; is_set := true; type_ := FUnknown |} = "Flag { position: Position(12), is_set: true }"%string.
Proof.
  split; [|split].
  - eexists. repeat (econstructor; [vm_compute; reflexivity|]). econstructor. vm_compute; reflexivity.
  - econstructor; [vm_compute; reflexivity|]. now constructor.
  - vm_compute. reflexivity.
Qed.
