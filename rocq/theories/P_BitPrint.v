(* Property C94: what a user sees who prints the flags of a flag word.
   Vocabulary: S_BitNames.v (the names by bit number), S_BitPrint.v (texts_of, text_of). *)
From Coq Require Import String.
From Coq Require Import ZArith Lia ZifyBool ZifyNat ZifyN.
From Verif Require Import Base M_Raw M_Bitfield G_Layouts G_Enums M_Bios.
From Verif Require Import Spec S_Bitfield S_BitNames S_BitPrint L_Base L_Bitfield L_BitNames L_BitPrint P_System.
Local Open Scope N_scope.

(* Printing the significant flags of any value of any flag word gives the names of the bits
   that are set, in ascending order of the bits: the short names with {} and the long ones
   with {:#}.  Bits that are reserved or left to others print nothing. *)
Theorem C94_printed : forall c size v l names long, In (size, l, names) named_layouts -> exists fs it,
  drains (significants_next c) (iter_new size v l) fs it /\ none_forever (significants_next c) it /\
  map (Flag_display long) fs = texts_of long names v.
Proof. exact printed_all. Qed.
Print Assumptions C94_printed.

(* So a text is among those printed exactly if some bit with that name is set. *)
Theorem C94_printed_iff_set : forall long names v t,
  In t (texts_of long names v) <-> exists k, N.testbit v k = true /\ text_of long names k t.
Proof. exact texts_in. Qed.
Print Assumptions C94_printed_iff_set.

(* Whatever is printed in either form, the bits can be told from it, except those whose name
   is Reserved. *)
Theorem C94_read_back : forall size l names long v w, In (size, l, names) named_layouts ->
  (forall t, In t (texts_of long names v) <-> In t (texts_of long names w)) ->
  forall k t, text_of long names k t -> t <> "Reserved"%string -> N.testbit v k = N.testbit w k.
Proof. exact reads_back. Qed.
Print Assumptions C94_read_back.

(* Bits 0 and 1 of the BIOS characteristics cannot be told from what is printed. *)
Theorem C94_read_back_refuted : In (8, Characteristics_layout, bios_bits) named_layouts /\
  texts_of false bios_bits 0x1 = texts_of false bios_bits 0x2 /\ texts_of true bios_bits 0x1 = texts_of true bios_bits 0x2 /\
  N.testbit 0x1 0 <> N.testbit 0x2 0.
Proof. split; [left; reflexivity|]. split; [vm_compute; reflexivity|]. split; [vm_compute; reflexivity|]. vm_compute. discriminate. Qed.
Print Assumptions C94_read_back_refuted.

(* Printing all flags of a word, set or not, gives one text per bit; it is the name of the bit or
   the note for it, and does not depend on the value of the word. *)
Theorem C94_every_bit : forall c size v l names, In (size, l, names) named_layouts -> exists fs it,
  drains (iter_next c) (iter_new size v l) fs it /\ len fs = size * 8 /\
  forall long k f, nth_error fs k = Some f ->
    (exists short full, called names (N.of_nat k) = Some (Significant short full) /\ Flag_display long f = if long then full else short) \/
    (exists note, called names (N.of_nat k) = Some (FReserved note) /\ Flag_display long f = note).
Proof.
  intros c size v l names H. destruct (named_iter c size v l names H) as (fs & it & D & _ & L & N).
  exists fs, it. split; [exact D|]. split; [exact L|]. intros long k f E. destruct (N k f E) as (_ & _ & C).
  assert (S : forall k t, called names k = Some t -> t <> FUnknown).
  { clear. induction names as [|[j s d|a b note] names IH]; intros k t E; cbn [called] in E; [discriminate E| |];
      destruct (_ : bool) in E; try (injection E as <-; discriminate); eauto. }
  unfold Flag_display. specialize (S _ _ C). destruct (type_ f) as [|s d|note]; [destruct (S eq_refl)|left; eauto|right; eauto].
Qed.
Print Assumptions C94_every_bit.

(* A word described by a table of the user's own prints in the same way, and a bit that the
   table calls unknown prints Unknown. *)
Theorem C94_own_table : forall c size v l, size <= 16 -> size * 8 = len l -> exists fs it,
  drains (iter_next c) (iter_new size v l) fs it /\
  forall long k, match nth_error l k with
    | Some (Significant short full) => option_map (Flag_display long) (nth_error fs k) = Some (if long then full else short)
    | Some (FReserved note) => option_map (Flag_display long) (nth_error fs k) = Some note
    | Some FUnknown => option_map (Flag_display long) (nth_error fs k) = Some "Unknown"%string
    | None => nth_error fs k = None
    end.
Proof.
  intros c size v l H1 H2. destruct (iter_all c size v l H1) as [it [D _]]; [lia|].
  exists (flags v 0 (take (size * 8) l)), it. split; [exact D|]. rewrite H2, take_all by lia. intros long k.
  assert (L := flags_length v l 0). destruct (nth_error l k) as [t|] eqn:E.
  - destruct (nth_error (flags v 0 l) k) as [f|] eqn:F.
    + pose proof F as G. apply flags_nth in G. destruct G as (_ & _ & G). rewrite E in G. injection G as ->.
      cbn [option_map]. unfold Flag_display. destruct (type_ f); reflexivity.
    + exfalso. apply nth_error_None in F. assert (k < length l)%nat by (apply nth_error_Some; rewrite E; discriminate). unfold len in L. lia.
  - apply nth_error_None. apply nth_error_None in E. unfold len in L. lia.
Qed.
Print Assumptions C94_own_table.

(* ------------------------------------------------------------------ examples *)

(* a BIOS with plug and play, an upgradeable chip and vendor bits set *)
Example C94_example : texts_of false bios_bits 0xFFFF00000A00 = ["PNP is supported"; "BIOS is upgradeable"]%string /\
  texts_of true bios_bits 0xFFFF00000A00 = ["Plug and Play is supported"; "BIOS is upgradeable (Flash)"]%string /\
  text_of true bios_bits 9 "Plug and Play is supported".
Proof. split; [|split]; try (vm_compute; reflexivity). exists "PNP is supported"%string, "Plug and Play is supported"%string. split; [vm_compute; tauto|reflexivity]. Qed.
Example C94_example_own : exists l, 1 * 8 = len l /\ nth_error l 0 = Some FUnknown /\ nth_error l 7 = Some (Significant "A" "B").
Proof. exists (repeat FUnknown 7 ++ [Significant "A" "B"]). vm_compute. auto. Qed.
